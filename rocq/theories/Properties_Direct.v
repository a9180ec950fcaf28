(* Properties C73 - C75: nobody loses anything, and nothing changes hands, by calling an unknown contract: whatever such a
   contract does, a contract's settings, an account's tokens and its coins are touched only by a transaction that itself says so. *)
From Coq Require Import String Ascii ZArith Lia.
From stdpp Require Import base countable list numbers strings gmap relations.
From Verif Require Import Res FormulaConsts FormulaModel Codec World WorldBasics WorldSteps WorldExec WorldSpec Scenario WorldInv WorldMoney WorldAuth
  DirectSpec WorldDirect WorldCalls WorldHop WorldOwner WorldTrade WorldMore WorldLoss Properties_Tokens Properties_Roles.
Local Open Scope Z_scope.

(* C73 *)
Theorem C73_settings_change_only_by_direct_call : forall adv fuel t w r w' X, reachable adv w -> is_owned w X -> accountable_roles w X ->
  run_tx adv fuel t w = Ok (r, w') ->
  (forall n Y m, t = TCall n Y 0 m -> controls w X Y -> admin_method m = true -> ~ entitled w (EOA n) Y m) ->
  same_settings w w' X.
Proof.
  intros adv fuel t w r w' X Hr HX HA H Hno. destruct (owned_sc _ _ HX) as (sc & Hsc & _).
  assert (forall a k, kind_at w a = Some k -> is_contract a = true) as Hc by (intros a k K; by apply (kind_contract adv w a k Hr K)).
  destruct (settings_direct adv w (no_zero_reachable _ _ Hr) fuel t r w' X HX HA) as (O1 & O2 & HS); [|exact H|].
  { destruct t as [n Y v m|n a i]; cbn.
    - split; [done|]. intros _ (HY & _ & HC) He Hb. destruct HY as (k & Hk & Hk').
      assert (v = 0) as ->. { eapply (call_zero adv); [exact Hk|by eapply Hc| |exact H]. unfold full in Hb. destruct k, m; naive_solver. }
      by apply (Hno n Y m eq_refl HC Hb).
    - apply deploy_inv in H as (_ & Hf & _). destruct i as [| | |? ? ? [] ?| | |]; try done. split; [done|].
      intros _ ((k & Hk & _) & _). unfold kind_at in Hk. by rewrite Hf in Hk. }
  destruct (HS _ Hsc) as (sc' & Hsc' & S).
  destruct (ident_tx _ _ _ _ _ _ H _ _ Hsc) as (sc2 & E2 & I). rewrite Hsc' in E2. injection E2 as <-.
  by apply (same_settings_of w w' X sc sc').
Qed.
Print Assumptions C73_settings_change_only_by_direct_call.

(* when all roles are held by accounts: only a direct call to X itself *)
Lemma controls_accounts adv w X Y : reachable adv w -> (exists a, owner_of w X = EOA a) ->
  (pending_owner_of w X = zero_score \/ exists b, pending_owner_of w X = EOA b) -> controls w X Y -> Y = X.
Proof.
  intros Hr (a & Ho) Hp HC. induction HC as [|Y Z HC IH Hk Ht Hor]; [done|]. subst Z. rewrite IH in *. exfalso.
  destruct Hor as [E|E]; rewrite E in Hk.
  - rewrite Ho in Hk. unfold kind_at in Hk. by rewrite (no_eoa_reachable _ _ Hr) in Hk.
  - destruct Hp as [Hp|(b & Hp)]; rewrite Hp in Hk; unfold kind_at in Hk; [by rewrite (no_zero_reachable _ _ Hr) in Hk|by rewrite (no_eoa_reachable _ _ Hr) in Hk].
Qed.
Lemma entitled_dec w a Y m : entitled w a Y m \/ ~ entitled w a Y m.
Proof.
  assert (Decision (entitled w a Y m)) as D by (destruct m; cbn; apply _). destruct (decide (entitled w a Y m)); auto.
Qed.
Definition account_role (o : option addr) : Prop := forall a, o = Some a -> a = zero_score \/ exists n, a = EOA n.
Theorem C73_accounts : forall adv fuel t w r w' X, reachable adv w -> is_owned w X ->
  (exists a, owner_of w X = EOA a) -> (pending_owner_of w X = zero_score \/ exists b, pending_owner_of w X = EOA b) ->
  account_role (manager_of w X) -> account_role (pending_manager_of w X) ->
  run_tx adv fuel t w = Ok (r, w') ->
  same_settings w w' X \/ exists n m, t = TCall n X 0 m /\ admin_method m = true /\ entitled w (EOA n) X m.
Proof.
  intros adv fuel t w r w' X Hr HX Ho Hp Hm Hq H.
  assert (accountable_roles w X) as HA.
  { split; [|split].
    - split; [destruct Ho as (a & ->); constructor|]. destruct Hp as [->|(b & ->)]; constructor.
    - intros a E. destruct (Hm a E) as [->|(b & ->)]; constructor.
    - intros a E. destruct (Hq a E) as [->|(b & ->)]; constructor. }
  destruct t as [n Y v m|n a i].
  - destruct (decide (Y = X)) as [->|Hne]; [destruct (decide (v = 0)) as [->|Hv]; [destruct (admin_method m) eqn:Ea; [destruct (entitled_dec w (EOA n) X m) as [He|He]|]|]|].
    + right. by exists n, m.
    + left. eapply C73_settings_change_only_by_direct_call; try done. intros n' Y m' E _ _ E'. by injection E as <- <- <-.
    + left. eapply C73_settings_change_only_by_direct_call; try done. intros n' Y m' E _ E'. injection E as <- <- <-. congruence.
    + left. eapply C73_settings_change_only_by_direct_call; try done. intros n' Y m' E. by injection E.
    + left. eapply C73_settings_change_only_by_direct_call; try done. intros n' Y' m' E HC. injection E as <- <- _ <-.
      by apply (controls_accounts adv) in HC.
  - left. by eapply C73_settings_change_only_by_direct_call.
Qed.
Print Assumptions C73_accounts.
(* a contract that turns on whoever calls it: it tries to take over the converter and its token, and to spend *)
Definition phish : adversary := fun self c m =>
  PTry false convA 0 (MTransferOwnership self) (fun _ => PTry false convA 0 (MSetConversionFee 0) (fun _ =>
  PTry false convA 0 (MTransferTokenOwnership self) (fun _ => PTry false flexA 0 (MDestroy admin 1) (fun _ =>
  PTry false icxt 0 (MTransfer self 1 None) (fun _ => PTry false icxt 0 (MWithdrawTo 1 self) (fun _ => PRet RNone)))))).
Definition phished : list tx := setup ++ [TDeploy 3 9 IAdv; call 1 (SCORE 9) MName; call 2 (SCORE 9) MName].
(* the owner and a holder call it: nothing happens; the converter is administered by its owner, and its token through it *)
Example C73_example :
  is_owned ready flexA /\ accountable_roles ready flexA /\ controls ready flexA convA /\
  entitled ready admin convA (MDisableTokenTransfers true) /\ admin_method (MDisableTokenTransfers true) = true /\
  (w ← play quiet 9 [call 1 convA (MDisableTokenTransfers true)] ready; Some (transferable w flexA)) = Some false /\
  (w ← play phish 20 phished world0; Some (owner_of w convA, pending_owner_of w convA, fee_of w convA, owner_of w flexA, pending_owner_of w flexA)) =
    Some (admin, zero_score, 3000, convA, zero_score).
Proof.
  assert (is_owned ready flexA) as E0 by (exists KFlex; by vm_compute).
  assert (owner_of ready flexA = convA) as E1 by (by vm_compute). assert (pending_owner_of ready flexA = zero_score) as E2 by (by vm_compute).
  assert (owner_of ready convA = admin) as E3 by (by vm_compute). assert (pending_owner_of ready convA = zero_score) as E4 by (by vm_compute).
  assert (manager_of ready flexA = None) as E5 by (by vm_compute). assert (pending_manager_of ready flexA = None) as E6 by (by vm_compute).
  assert (kind_at ready convA = Some KConv) as E7 by (by vm_compute). assert (token_of ready convA = flexA) as E8 by (by vm_compute).
  split; [exact E0|].
  split; [|split; [|split; [|split; [exact eq_refl|]]]].
  - unfold accountable_roles, accountable_owner. rewrite E1, E2, E5, E6.
    split; [split; [|apply accountable_zero]|clear; split; intros a E; discriminate E].
    apply accountable_conv; [exact E7|rewrite E3; apply accountable_user|rewrite E4; apply accountable_zero].
  - apply (controls_conv ready flexA convA flexA); [apply controls_self|exact E7|exact E8|left; symmetry; exact E1].
  - unfold entitled. rewrite E3. exact eq_refl.
  - clear. split; [by vm_compute|]. by vm_compute.
Qed.

(* C22, in full for a contract owned by an account: every change of owner or pending owner is one of two direct calls *)
Theorem C22_ownership_moves_only_by_direct_calls : forall adv fuel t w r w' X a, reachable adv w -> is_owned w X ->
  owner_of w X = EOA a -> (pending_owner_of w X = zero_score \/ exists b, pending_owner_of w X = EOA b) ->
  run_tx adv fuel t w = Ok (r, w') ->
  (owner_of w' X = owner_of w X /\ pending_owner_of w' X = pending_owner_of w X) \/
  (exists new, t = TCall a X 0 (MTransferOwnership new) /\ new <> EOA a /\ owner_of w' X = EOA a /\ pending_owner_of w' X = new) \/
  (exists b, t = TCall b X 0 MAcceptOwnership /\ pending_owner_of w X = EOA b /\ owner_of w' X = EOA b /\ pending_owner_of w' X = zero_score).
Proof.
  intros adv fuel t w r w' X a Hr HX Ho Hp H.
  assert (accountable_owner w X) as HA.
  { split; [rewrite Ho; constructor|]. destruct Hp as [->|(b & ->)]; constructor. }
  assert (forall Y, controls w X Y -> Y = X) as HC by (intros; by eapply controls_accounts; eauto).
  destruct (owned_sc _ _ HX) as (sc & Hsc & Hok).
  assert (is_contract X = true) as Hc. { destruct HX as (k & Hk & _). by apply (kind_contract adv w X k Hr Hk). }
  assert (first_call (dcall w (controls w X) moves) t -> owner_of w' X = owner_of w X /\ pending_owner_of w' X = pending_owner_of w X) as Hstay.
  { intros HF. by eapply (ownership_direct adv w (no_zero_reachable _ _ Hr)). }
  destruct t as [n Y v m|n c i]; cbn in Hstay.
  - destruct (decide (Y = X)) as [->|Hne].
    2:{ left. apply Hstay. split; [done|]. intros _ (_ & _ & E). by apply HC in E. }
    assert (owner_method m = true -> v = 0) as Hv.
    { intros Hm. pose proof HX as (k & Hk & Hk'). eapply (call_zero adv); [exact Hk|exact Hc| |exact H]. destruct k, m; naive_solver. }
    cbn in H.
    assert (m = MAcceptTokenOwnership \/ (exists a, m = MTransferTokenOwnership a) -> owner_of w' X = owner_of w X /\ pending_owner_of w' X = pending_owner_of w X) as Hforward.
    { intros Hf. destruct HX as (k & Hk & Hk').
      assert (k = KConv) as -> by (eapply (forward_conv adv); [exact Hk|exact Hc| |exact Hf|exact H]; by destruct Hk').
      eapply (forward_inv adv) in H as (_ & f' & m' & r' & G & Hm'); [|exact Hk|exact Hc|exact Hf].
      eapply (ownership_direct_exec adv w (no_zero_reachable _ _ Hr)); [by exists KConv|exact HA| |exact G].
      split; [intros E; rewrite E in Hk; unfold kind_at in Hk; by rewrite (no_zero_reachable _ _ Hr) in Hk|].
      intros _ (_ & _ & E) He _. apply HC in E. rewrite E in He.
      destruct Hm' as [->|(b & ->)]; cbn in He; rewrite He in Hc.
      - destruct Hp as [Hp|(b & Hp)]; [|by rewrite Hp in Hc]. rewrite <- He in Hp. rewrite Hp in Hk. unfold kind_at in Hk. by rewrite (no_zero_reachable _ _ Hr) in Hk.
      - by rewrite Ho in Hc. }
    destruct fuel as [|f]; [done|].
    unfold owner_of, pending_owner_of in *. rewrite !(var_sc _ _ _ _ _ Hsc) in *.
    destruct m; try (left; apply Hstay; split; [done|]; intros _ _ _; by unfold moves); specialize (Hv eq_refl); subst v.
    + destruct (proj1 (transferOwnership_iff adv f _ X w sc Hc Hsc _ _ _ Hok) H) as ((E1 & E2) & _ & ->).
      right; left. rewrite after_wupd, !var_upd, !decide_True by done. assert (n = a) as -> by congruence.
      eexists. split; [reflexivity|]. split; [congruence|]. by split.
    + destruct (proj1 (acceptOwnership_iff adv f _ X w sc Hc Hsc _ _ Hok) H) as (E1 & _ & ->).
      right; right. rewrite after_wupd, !var_upd, !decide_True by done. exists n. done.
    + left. apply Hforward; eauto.
    + left. apply Hforward; eauto.
  - left. apply Hstay. by destruct i as [| | |? ? ? [] ?| | |].
Qed.
Print Assumptions C22_ownership_moves_only_by_direct_calls.
Example C22_example_direct : is_owned ready convA /\ owner_of ready convA = admin /\ pending_owner_of ready convA = zero_score /\
  (w ← play quiet 9 [call 1 convA (MTransferOwnership bob)] ready; Some (owner_of w convA, pending_owner_of w convA)) = Some (admin, bob) /\
  (w ← play quiet 9 [call 1 convA (MTransferOwnership bob); call 3 convA MAcceptOwnership] ready; Some (owner_of w convA, pending_owner_of w convA)) = Some (bob, zero_score).
Proof. split; [exists KConv; by vm_compute|]. vm_compute. done. Qed.

(* C74: IRC and ICX tokens *)
Theorem C74_tokens_leave_only_by_direct_calls : forall adv fuel t w r w' T n, reachable adv w -> kind_at w T = Some KIrc \/ kind_at w T = Some KIcx ->
  run_tx adv fuel t w = Ok (r, w') -> balance_of w' T (EOA n) < balance_of w T (EOA n) ->
  exists m x, t = TCall n T 0 m /\ balance_of w T (EOA n) - x <= balance_of w' T (EOA n) /\
    ((exists to d, m = MTransfer to x d) \/ kind_at w T = Some KIcx /\ (m = MWithdraw x \/ exists to, m = MWithdrawTo x to)).
Proof.
  intros adv fuel t w r w' T n Hr HT H Hlt.
  assert (is_contract T = true) as Hc by (destruct HT as [K|K]; by apply (kind_contract adv w T _ Hr K)).
  assert (~ first_call (no_spend n T) t) as Hs.
  { intros Hs. pose proof (plain_tx adv n T fuel t w r w' HT Hs H) as G. unfold kept in G. lia. }
  destruct t as [k to v m|k a i]; cbn in Hs.
  2:{ exfalso. apply Hs. destruct i as [| | |? ? ? [] ?| | |]; try done. by intros _ _ []. }
  destruct (decide (k = n)) as [->|]; [|exfalso; apply Hs; intros E; congruence].
  destruct (decide (to = T)) as [->|]; [|exfalso; apply Hs; intros E ?; congruence].
  cbn in H. destruct m; try (exfalso; apply Hs; by intros _ _ []).
  - eapply (spend_transfer adv n T fuel v _ _ _ w r w' (plain T)) in H as (-> & _ & G).
    + do 2 eexists. split; [reflexivity|]. split; [exact G|]. eauto.
    + destruct HT; [by left|by right; left].
    + intros w1 L. unfold plain. by rewrite !(ledger_kind _ _ _ L).
    + intros f r2 w1 w2 HP E. eapply (plain_exec adv n T); [exact HP| |exact E]. by apply no_spend_contract.
  - destruct HT as [K|K].
    + exfalso. refine (no_such adv fuel _ _ _ _ _ _ _ _ K Hc _ _ _ H); [done..|]. intros f c. by eexists.
    + eapply (spend_withdraw adv n T) in H as (-> & _ & G); [|exact K|exact Hc|right; by split].
      do 2 eexists. split; [reflexivity|]. split; [exact G|]. eauto.
  - destruct HT as [K|K].
    + exfalso. refine (no_such adv fuel _ _ _ _ _ _ _ _ K Hc _ _ _ H); [done..|]. intros f c. by eexists.
    + eapply (spend_withdraw adv n T) in H as (-> & _ & G); [|exact K|exact Hc|by left].
      do 2 eexists. split; [reflexivity|]. split; [exact G|]. eauto.
  - exfalso. destruct HT as [K|K]; (refine (no_such adv fuel _ _ _ _ _ _ _ _ K Hc _ _ _ H); [done..|]); intros f c; by eexists.
Qed.
Print Assumptions C74_tokens_leave_only_by_direct_calls.
(* flexible tokens whose owner is accountable *)
Theorem C74_flexible_tokens_leave_only_by_direct_calls : forall adv fuel t w r w' T n, reachable adv w -> kind_at w T = Some KFlex -> accountable_owner w T ->
  run_tx adv fuel t w = Ok (r, w') -> balance_of w' T (EOA n) < balance_of w T (EOA n) ->
  exists k m x, t = TCall k T 0 m /\ balance_of w T (EOA n) - x <= balance_of w' T (EOA n) /\
    ((exists to d, k = n /\ m = MTransfer to x d) \/ ((k = n \/ owner_of w T = EOA k) /\ m = MDestroy (EOA n) x)).
Proof.
  intros adv fuel t w r w' T n Hr HT HO H Hlt. pose proof (no_zero_reachable _ _ Hr) as Hz.
  assert (forall a k, kind_at w a = Some k -> is_contract a = true) as HC by (intros a k K; by apply (kind_contract adv w a k Hr K)).
  pose proof (HC _ _ HT) as Hc.
  assert (trusted w (controls w T) T) as HTr by (by apply T_trusted).
  pose proof HT as HT'. apply kind_at_Some in HT' as (sc & Hsc & K).
  assert (dinv w (controls w T) w) as HI by (by apply dinv_start).
  assert (~ (first_call (dcall w (controls w T) seize) t /\ first_call (no_spend n T) t)) as Hs.
  { intros [Hs1 Hs2]. pose proof (flex_tx adv n T w Hz HT HO fuel t r w' Hs1 Hs2 H) as G. unfold kept in G. lia. }
  destruct t as [k to v m|k a i]; cbn in Hs.
  2:{ exfalso. apply Hs. destruct i as [| | |? ? ? [] ?| | |]; try done. split; [|by intros _ _ []]. split; [done|].
      intros _ _ _ [E|(? & ? & E & _)]; done. }
  cbn in H.
  (* moving ownership takes no tokens *)
  assert (owner_method m = true -> trusted w (controls w T) to -> False) as Hmove.
  { intros Hm (Hto & _ & Hct). destruct Hto as (k0 & Hk0 & _ & Hk0').
    pose proof (owner_call adv fuel (EOA k) to v m w r w' k0 Hk0 (HC _ _ Hk0) Hk0') as G.
    rewrite G in Hlt; [lia| |exact Hm|exact H]. intros ->. destruct Hct as [|Y Z Hct Hk1 Ht1 _]; [congruence|]. rewrite Ht1.
    destruct Hct as [|Y1 Z1 _ Hk2 _ _]; [exists KFlex|exists KConv]; eauto. }
  assert (forall a x, m = MDestroy a x -> trusted w (controls w T) to -> to = T /\ v = 0 /\ a = EOA n /\ 0 < x /\
     (EOA k = a \/ EOA k = owner_of w T) /\ balance_of w' T (EOA n) = balance_of w T (EOA n) - x) as Hdestroy.
  { intros a x -> (Hto & _ & Hct). destruct Hto as (k0 & Hk0 & _ & Hk0').
    assert (to = T) as ->.
    { destruct Hct as [|Y Z Hct Hk1 _ _]; [done|]. exfalso.
      refine (no_such adv fuel _ _ _ _ _ _ _ _ Hk1 (HC _ _ Hk1) _ _ _ H); [done..|]. intros f c. by eexists. }
    split; [done|]. assert (v = 0) as -> by (by eapply (call_zero adv); [exact HT|exact Hc| |exact H]). split; [done|].
    destruct fuel as [|f]; [done|].
    destruct (proj1 (destroy_iff adv f _ T w sc Hc Hsc _ _ _ _ K) H) as ((Hx & Hor) & _ & ->).
    unfold owner_of. rewrite (var_sc _ _ _ _ _ Hsc). revert Hlt. rewrite after_wupd, balance_of_upd, decide_True by done.
    rewrite (balance_of_sc _ _ _ _ Hsc). rewrite balance_set_supply, balance_add. case_decide as E; [|lia]. intros _.
    rewrite E. split; [done|]. split; [lia|]. split; [|lia].  by destruct Hor; [left|right]. }
  destruct (decide (to = T)) as [->|Hne].
  - destruct m; try (exfalso; apply Hs; split; [|by intros _ _ []]; split; [done|]; intros _ ? _ [E|(? & ? & E & _)]; [by eauto|done]).
    + destruct (decide (k = n)) as [->|Hkn]; [|exfalso; apply Hs; split; [|intros E; congruence]; split; [done|]; intros _ ? _ [E|(? & ? & E & _)]; done].
      eapply (spend_transfer adv n T fuel v _ _ _ w r w' (dinv w (controls w T))) in H as (-> & _ & G).
      * exists n. do 2 eexists. split; [reflexivity|]. split; [exact G|]. left. eauto.
      * by right; right.
      * intros w1 L. split.
        -- intros a k' Hk. by rewrite (ledger_kind _ _ _ L).
        -- intros a _. by apply ledger_token.
        -- destruct L as [_ L]. specialize (L zero_score). rewrite Hz in L. by destruct (w_scores w1 !! zero_score).
        -- intros X _. by apply ledger_owner.
        -- intros X _. unfold pending_owner_of. by apply eff_var.
      * intros f r2 w1 w2 HP E. eapply (flex_exec adv n T w Hz HT HO); [exact HP| |by apply no_spend_contract|exact E].
        split; [|intros _ _ _ [E'|(? & ? & E' & _)]; done]. intros ->. by rewrite Hz in Hsc.
    + exfalso. refine (no_such adv fuel _ _ _ _ _ _ _ _ HT Hc _ _ _ H); [done..|]. intros f c. by eexists.
    + exfalso. refine (no_such adv fuel _ _ _ _ _ _ _ _ HT Hc _ _ _ H); [done..|]. intros f c. by eexists.
    + destruct (Hdestroy _ _ eq_refl HTr) as (_ & -> & -> & Hx & Hor & E).
      exists k. do 2 eexists. split; [reflexivity|]. split; [rewrite E; reflexivity|]. right. split; [|done].
      destruct Hor as [Ek|Ek]; [left; congruence|by right].
  - exfalso. apply Hs. split; [|intros _ E; congruence]. split; [done|]. intros _ Htr _ [E|(a & x & E & _)]; [by apply Hmove|].
    destruct (Hdestroy _ _ E Htr) as (? & _). done.
Qed.
Print Assumptions C74_flexible_tokens_leave_only_by_direct_calls.
(* what happens to a holder who calls such a contract (nothing), or who transfers to a contract (at most the amount); and why
   the owner of a flexible token must be accountable: an unknown contract that owns one can be made to destroy by anybody *)
Definition taker : adversary := fun self c m =>
  match m with MName => PCall false (SCORE 9) 0 MAcceptOwnership (fun _ => PRet RNone) | _ => PCall false (SCORE 9) 0 (MDestroy bob 3) (fun _ => PRet RNone) end.
Example C74_example :
  kind_at ready icxt = Some KIcx /\ kind_at ready flexA = Some KFlex /\ accountable_owner ready flexA /\
  balance_of ready icxt alice = 10 ^ 21 /\ balance_of ready flexA admin = 9 * 10 ^ 11 /\
  (w ← play phish 20 phished world0; Some (balance_of w icxt alice, balance_of w flexA admin)) = Some (10 ^ 21, 9 * 10 ^ 11) /\
  (w ← play quiet 9 [call 1 flexA (MTransfer bob 7 None); call 2 icxt (MWithdraw 9)] ready; Some (balance_of w icxt alice, balance_of w flexA admin)) =
    Some (10 ^ 21 - 9, 9 * 10 ^ 11 - 7) /\
  (w ← play taker 20 [TDeploy 1 9 (IFlex "Gamma" "GAM" 10 2); TDeploy 2 10 IAdv; call 1 (SCORE 9) (MIssue bob 5); call 1 (SCORE 9) (MTransferOwnership (SCORE 10));
      call 2 (SCORE 10) MName; call 2 (SCORE 10) MSymbol] ready; Some (balance_of w (SCORE 9) bob)) = Some 2.
Proof.
  do 2 (split; [by vm_compute|]). split; [apply C73_example|]. vm_compute. done.
Qed.

(* C75 *)
Theorem C75_coins_leave_only_as_attached : forall adv fuel t w r w' n, run_tx adv fuel t w = Ok (r, w') -> icx w' (EOA n) < icx w (EOA n) ->
  exists to v m, t = TCall n to v m /\ icx w (EOA n) - v <= icx w' (EOA n).
Proof.
  intros adv fuel t w r w' n H Hlt. pose proof (icx_loss adv n fuel t w r w' H) as G. destruct t as [k to v m|k a i]; [|lia].
  destruct (decide (k = n)) as [->|]; [|lia]. by exists to, v, m.
Qed.
Print Assumptions C75_coins_leave_only_as_attached.
Example C75_example : 5 <= icx ready alice /\
  (w ← play quiet 9 [TCall 2 icxt 5 MDeposit] ready; Some (icx w alice - icx ready alice, balance_of w icxt alice - balance_of ready icxt alice)) = Some (-5, 5) /\
  (w ← play phish 20 phished world0; Some (icx w alice - icx ready alice)) = Some 0.
Proof. vm_compute. done. Qed.
