(* ICX coins and supplies: backing of the ICX token (C15), accounting by events (C18). *)
From Coq Require Import String Ascii ZArith Lia.
From stdpp Require Import base countable list numbers strings gmap relations.
From Verif Require Import Res FormulaConsts FormulaModel Codec World WorldBasics WorldSteps WorldExec WorldSpec WorldInv.
Local Open Scope Z_scope.
Local Open Scope M_scope.

Section money.
Variable adv : adversary.

(* a relation over one frame from its local steps and nested calls *)
Lemma esteps_rel f k c m (R : world -> world -> Prop) :
  (forall w, R w w) -> (forall w1 w2 w3, R w1 w2 -> R w2 w3 -> R w1 w3) ->
  (forall w sc sc' evs, w_scores w !! c_self c = Some sc -> s_kind sc = k -> lstep k c m sc sc' evs ->
     R w (wupd (c_self c) sc' evs w)) ->
  (forall ro w w' sc to v m' r, w_scores w !! c_self c = Some sc -> s_kind sc = k -> k = KAdv \/ hcall k c m sc to v m' ->
     (c_ro c = true -> ro = true) -> exec adv f ro (c_self c) to v m' w = Ok (r, w') -> R w w') ->
  forall w w' sc, w_scores w !! c_self c = Some sc -> s_kind sc = k -> esteps adv f k c m w w' -> R w w'.
Proof.
  intros Hr Ht Hl Hc w w' sc Hsc Hk H. revert sc Hsc Hk.
  induction H as [w|w w2 w3 H1 H2 IH]; intros sc Hsc Hk; [apply Hr|].
  assert (R w w2 /\ same_kinds w w2) as [HR HK].
  { destruct H1 as [w sc1 sc' evs Hs Hst Hro|ro' w w2 sc1 to v' m' r' Hs Hcc Hro E];
      assert (sc1 = sc) as -> by congruence.
    - split; [by eapply Hl|by eapply wupd_same_kinds].
    - split; [by eapply Hc|by eapply exec_kinds]. }
  destruct (HK _ _ Hsc) as (sc2 & Hsc2 & Hk2).
  eapply Ht; [exact HR|]. eapply IH; [exact Hsc2|congruence].
Qed.

(* the coins after a value transfer *)
Lemma move_icx_eq s t v w w' u : move_icx s t v w = Ok (u, w') ->
  forall a, icx w' a = icx w a - (if decide (a = s) then v else 0) + (if decide (a = t) then v else 0).
Proof.
  intros H a. apply move_icx_Ok in H as [[-> ->]|(Hv & Hb & ->)]; [repeat case_decide; lia|].
  unfold icx at 1. cbn.
  destruct (decide (a = t)) as [->|].
  - rewrite lookup_insert. cbn. case_decide as E.
    + subst. rewrite lookup_insert. cbn. lia.
    + rewrite lookup_insert_ne by done. fold (icx w t). lia.
  - rewrite lookup_insert_ne by done. case_decide as E.
    + subst. rewrite lookup_insert. cbn. lia.
    + rewrite lookup_insert_ne by done. fold (icx w a). lia.
Qed.
Lemma move_icx_nonneg s t v w w' u : move_icx s t v w = Ok (u, w') -> 0 <= v.
Proof. intros H. apply move_icx_Ok in H as [[-> _]|(? & _ & _)]; lia. Qed.
Lemma move_icx_ge0 s t v w w' u : move_icx s t v w = Ok (u, w') -> (forall a, 0 <= icx w a) -> forall a, 0 <= icx w' a.
Proof.
  intros H H0 a. pose proof (move_icx_eq _ _ _ _ _ _ H a) as ->. pose proof (H0 a).
  apply move_icx_Ok in H as [[-> _]|(? & ? & _)]; repeat case_decide; subst; lia.
Qed.
Lemma wupd_icx a sc evs w b : icx (wupd a sc evs w) b = icx w b.
Proof. done. Qed.

(* ------------------------------------------------ coins are never negative ---- *)
Lemma icx_ge0_tx fuel t w r w' : (forall a, 0 <= icx w a) -> run_tx adv fuel t w = Ok (r, w') -> forall a, 0 <= icx w' a.
Proof.
  intros H0 H. revert H0.
  eapply (tx_ind adv (fun _ => True) (fun _ _ _ _ => True) (fun w w' => (forall a, 0 <= icx w a) -> forall a, 0 <= icx w' a)); try done; eauto.
  - intros. by eapply move_icx_ge0.
  - destruct t; [exact I|]. by destruct i as [| | |? ? ? [] ?| | |].
Qed.
Theorem icx_ge0_reachable w : reachable adv w -> forall a, 0 <= icx w a.
Proof.
  apply (reachable_ind adv (fun w => forall a, 0 <= icx w a)).
  - by intros w0 (_ & _ & H & _).
  - intros. by eapply icx_ge0_tx.
Qed.

(* --------------------------------- addresses without contract hold no coins ---- *)
Definition no_code (w : world) (a : addr) : Prop := is_contract a = true /\ w_scores w !! a = None.
Lemma no_code_back fuel ro s t v m w r w' a : exec adv fuel ro s t v m w = Ok (r, w') -> no_code w' a -> no_code w a.
Proof.
  intros H [H1 H2]. split; [done|]. destruct (w_scores w !! a) as [sc|] eqn:E; [|done].
  destruct (exec_keeps adv fuel _ _ _ _ _ _ _ _ _ _ H E) as [? ?]. congruence.
Qed.
(* execution creates no contract *)
Lemma exec_no_new fuel ro s t v m w r w' a : exec adv fuel ro s t v m w = Ok (r, w') -> w_scores w !! a = None -> w_scores w' !! a = None.
Proof.
  intros H. eapply (exec_ind adv (fun _ => True) (fun _ _ _ _ => True) (fun w w' => w_scores w !! a = None -> w_scores w' !! a = None)); try done; eauto.
  - intros s0 t0 v0 m0 w0 w0' _ _ Hm. by rewrite (move_icx_scores _ _ _ _ _ _ Hm).
  - intros w0 k c m0 sc sc' evs _ _ _ Hsc _ _ _ _ Ha. cbn. rewrite lookup_insert_ne; [done|]. congruence.
Qed.
Lemma no_code_icx fuel : forall ro s t v m w r w' a,
  exec adv fuel ro s t v m w = Ok (r, w') -> no_code w a -> s <> a -> icx w' a = icx w a.
Proof.
  induction fuel as [|f IH]; intros ro s t v m w r w' a H [Ha1 Ha2] Hs; [done|].
  apply exec_inv in H as (w1 & H1 & _ & H); [|apply exec_keeps].
  pose proof (move_icx_eq _ _ _ _ _ _ H1 a) as E. rewrite decide_False in E by congruence.
  pose proof (move_icx_scores _ _ _ _ _ _ H1) as ES.
  destruct H as [(n & -> & _ & ->)|(sc & Ht & Hsc & _ & _ & _ & _ & H)].
  - rewrite E, decide_False; [lia|]. by intros ->.
  - rewrite decide_False in E by (intros ->; congruence).
    transitivity (icx w1 a); [|lia].
    assert (w_scores w1 !! a = None) as Ha3 by congruence.
    enough (w_scores w' !! a = None /\ icx w' a = icx w1 a) as [_ ?] by done.
    revert Ha3.
    refine (esteps_rel f _ _ m (fun w w' => w_scores w !! a = None -> w_scores w' !! a = None /\ icx w' a = icx w a) _ _ _ _ w1 w' sc _ _ H); try done.
    + intros w2 w3 w4 A B Hn. destruct (A Hn) as [A1 A2]. destruct (B A1) as [B1 B2]. split; [done|congruence].
    + cbn. intros w2 sc0 sc' evs Hs0 _ _ Hn. split; [|done]. cbn. rewrite lookup_insert_ne; [done|]. congruence.
    + cbn. intros ro' w2 w3 sc0 to v0 m0 r0 Hs0 _ _ _ Ee Hn. split; [by eapply exec_no_new|].
      eapply IH; [exact Ee|done|]. congruence.
Qed.
(* a relation over one transaction from its pieces *)
Lemma tx_rel (R : world -> world -> Prop) :
  (forall w, R w w) -> (forall w1 w2 w3, R w1 w2 -> R w2 w3 -> R w1 w3) ->
  forall fuel t w r w',
  (forall n to v m, t = TCall n to v m -> exec adv fuel false (EOA n) to v m w = Ok (r, w') -> R w w') ->
  (forall n a i, t = TDeploy n a i -> a <> 0%N -> w_scores w !! SCORE a = None -> init_ok i ->
     R w (wupd (SCORE a) (init_score i (EOA n) (SCORE a)).1 (init_score i (EOA n) (SCORE a)).2 w)) ->
  (forall n a i w1 sc cn wt sc' evs, t = TDeploy n a i -> w_scores w !! SCORE a = None ->
     w_scores w1 !! SCORE a = Some sc -> s_kind sc = KConv ->
     lstep KConv (Ctx (SCORE a) (EOA n) 0 false) (MAddConnector cn wt false) sc sc' evs -> R w1 (wupd (SCORE a) sc' evs w1)) ->
  (forall n a i ro w1 w2 sc to m' r, t = TDeploy n a i -> w_scores w !! SCORE a = None ->
     w_scores w1 !! SCORE a = Some sc -> s_kind sc = KConv -> is_readonly m' = true ->
     exec adv fuel ro (SCORE a) to 0 m' w1 = Ok (r, w2) -> R w1 w2) ->
  run_tx adv fuel t w = Ok (r, w') -> R w w'.
Proof.
  intros Hr Ht fuel t w r w' Hcall Hdep Hloc Hnest H.
  destruct t as [n to v m|n a i]; [by eapply Hcall|].
  apply deploy_inv in H as (Ha & Hf & Hi & [->|(t & reg & fe & cn & wt & -> & Hcn & Hst)]); [by apply Hdep|].
  eapply Ht; [by apply (Hdep n a _ eq_refl)|]. revert Hst.
  eapply (esteps_rel fuel KConv (Ctx (SCORE a) (EOA n) 0 false) (MAddConnector cn wt false) R Hr Ht); cbn.
  3: apply lookup_insert. 3: done.
  - intros w2 sc sc' evs Hs Hk Hl. by eapply Hloc.
  - intros ro w2 w3 sc to v m' r0 Hs Hk [Hc|Hc] _ E; [done|].
    inversion Hc; subst; try done; try (destruct_or!; done).
    by eapply Hnest.
Qed.

Lemma no_code_tx fuel t w r w' a : run_tx adv fuel t w = Ok (r, w') -> no_code w' a -> no_code w a /\ icx w' a = icx w a.
Proof.
  intros H. eapply (tx_rel (fun w w' => no_code w' a -> no_code w a /\ icx w' a = icx w a)); [by auto| | | | | |exact H].
  - intros w1 w2 w3 A B Hn. destruct (B Hn) as [B1 B2]. destruct (A B1) as [A1 A2]. split; [done|congruence].
  - intros n to v m _ E Hn. pose proof (no_code_back _ _ _ _ _ _ _ _ _ _ E Hn). split; [done|].
    eapply no_code_icx; [exact E|done|]. destruct Hn as [Hn _]. by intros <-.
  - intros n b i _ Hb Hf _ [Hn1 Hn2]. split; [|done]. split; [done|]. cbn in Hn2.
    destruct (decide (a = SCORE b)) as [->|]; [by rewrite lookup_insert in Hn2|by rewrite lookup_insert_ne in Hn2].
  - intros n b i w1 sc cn wt sc' evs _ _ Hs _ _ [Hn1 Hn2]. split; [|done]. split; [done|]. cbn in Hn2.
    destruct (decide (a = SCORE b)) as [->|]; [by rewrite lookup_insert in Hn2|by rewrite lookup_insert_ne in Hn2].
  - intros n b i ro w1 w2 sc to m' r0 _ _ Hs _ _ E Hn. pose proof (no_code_back _ _ _ _ _ _ _ _ _ _ E Hn) as Hn'. split; [done|].
    eapply no_code_icx; [exact E|done|]. intros <-. destruct Hn' as [_ Hn']. congruence.
Qed.
Theorem no_code_reachable w a : reachable adv w -> no_code w a -> icx w a = 0.
Proof.
  intros Hr. revert a. revert w Hr. apply (reachable_ind adv (fun w => forall a, no_code w a -> icx w a = 0)).
  - intros w (_ & _ & _ & H) a [Ha _]. destruct a; [done|]. apply H.
  - intros fuel t w r w' _ IH E a Hn. eapply no_code_tx in E as [E1 E2]; [|exact Hn]. rewrite E2. by apply IH.
Qed.

(* --------------------------------------------------------- C15: ICX backing ---- *)
Definition surplus (w : world) (T : addr) : Z := icx w T - supply_of w T.

Lemma kind_at_Some w T k : kind_at w T = Some k <-> exists sc, w_scores w !! T = Some sc /\ s_kind sc = k.
Proof.
  unfold kind_at. destruct (w_scores w !! T) as [sc|]; cbn; split.
  - intros [= <-]. eauto.
  - by intros (sc' & [= ->] & <-).
  - done.
  - by intros (sc' & ? & _).
Qed.
Lemma exec_kind_at fuel ro s t v m w r w' T k : exec adv fuel ro s t v m w = Ok (r, w') -> kind_at w T = Some k -> kind_at w' T = Some k.
Proof.
  intros H (sc & Hsc & Hk)%kind_at_Some. apply exec_kinds in H. destruct (H _ _ Hsc) as (sc' & Hsc' & Hk').
  apply kind_at_Some. exists sc'. split; [done|congruence].
Qed.
Lemma supply_of_upd w a sc evs T : supply_of (wupd a sc evs w) T = if decide (T = a) then s_supply sc else supply_of w T.
Proof.
  unfold supply_of, var, wupd. cbn. case_decide as E.
  - subst. by rewrite lookup_insert.
  - by rewrite lookup_insert_ne.
Qed.
Lemma supply_of_sc w T sc : w_scores w !! T = Some sc -> supply_of w T = s_supply sc.
Proof. unfold supply_of, var. by intros ->. Qed.

(* the two calls of the ICX token that touch coins *)
Lemma deposit_inv f c m w r w' sc : m = MFallback \/ m = MDeposit -> w_scores w !! c_self c = Some sc ->
  honest_handler (exec adv f) KIcx c m w = Ok (r, w') ->
  w' = wupd (c_self c) (set_supply (s_supply sc + c_value c) (add_bal (c_sender c) (c_value c) sc))
         [EvTransfer (c_self c) (c_sender c) (c_value c) data_none; EvIssuance (c_value c)] w.
Proof.
  intros Hm Hsc H. assert (honest_handler (exec adv f) KIcx c m w = done_ (icx_deposit c) w) as E by (by destruct Hm as [-> | ->]).
  rewrite E in H. unfold done_, icx_deposit in H. mrun H. reflexivity.
Qed.
Lemma withdraw_inv f c m w r w' sc x to :
  m = MWithdrawTo x to \/ (m = MWithdraw x /\ to = c_sender c) -> w_scores w !! c_self c = Some sc ->
  honest_handler (exec adv f) KIcx c m w = Ok (r, w') ->
  0 < x <= balance sc (c_sender c) /\ exists r2 w2,
    exec adv f (c_ro c) (c_self c) to x MFallback
      (wupd (c_self c) (set_supply (s_supply sc - x) (add_bal (c_sender c) (- x) sc)) [] w) = Ok (r2, w2) /\
    w' = wlog (c_self c) (EvDestruction x) w2.
Proof.
  intros Hm Hsc H.
  assert (honest_handler (exec adv f) KIcx c m w = done_ (icx_withdrawTo (exec adv f) c x to) w) as E by (by destruct Hm as [-> | [-> ->]]).
  rewrite E in H. unfold done_, icx_withdrawTo, require_positive_value, icx_transfer in H. mrun H. bools.
  split; [lia|]. eauto.
Qed.

Definition is_withdraw (m : msg) (c : ctx) (x : Z) (to : addr) : Prop :=
  m = MWithdrawTo x to \/ (m = MWithdraw x /\ to = c_sender c).
Lemma withdraw_dec m c : (exists x to, is_withdraw m c x to) \/ (forall x to, ~ is_withdraw m c x to).
Proof.
  destruct m; try (right; intros x' to' [?|[? ?]]; congruence).
  - left. exists v, (c_sender c). by right.
  - left. exists v, to. by left.
Qed.
Lemma deposit_dec m : (m = MFallback \/ m = MDeposit) \/ (m <> MFallback /\ m <> MDeposit).
Proof. destruct m; auto. Qed.

Theorem surplus_exec fuel : forall ro s t v m w r w' T, is_contract T = true -> kind_at w T = Some KIcx ->
  exec adv fuel ro s t v m w = Ok (r, w') ->
  surplus w' T = surplus w T - (if decide (s = T) then v else 0).
Proof.
  induction fuel as [|f IH]; intros ro s t v m w r w' T HT HK H; [done|].
  apply exec_inv in H as (w1 & H1 & _ & H); [|apply exec_keeps].
  pose proof (move_icx_scores _ _ _ _ _ _ H1) as ES.
  assert (surplus w1 T = surplus w T - (if decide (s = T) then v else 0) + (if decide (t = T) then v else 0)) as E1.
  { unfold surplus, supply_of, var. rewrite ES, (move_icx_eq _ _ _ _ _ _ H1 T). repeat case_decide; subst; try done; lia. }
  assert (kind_at w1 T = Some KIcx) as HK1 by (unfold kind_at; by rewrite ES).
  destruct H as [(n & -> & _ & ->)|(sc & Ht & Hsc & _ & Hpay & Hh & _ & H)].
  { rewrite E1. rewrite (decide_False (P := EOA n = T)); [lia|]. by intros <-. }
  enough (surplus w' T = surplus w1 T - (if decide (t = T) then v else 0)) by lia.
  clear E1 H1 ES.
  destruct (decide (t = T)) as [->|Hne].
  - (* the token itself runs *)
    destruct (proj1 (kind_at_Some _ _ _) HK1) as (sc0 & Hsc0 & Hk). assert (sc0 = sc) as -> by congruence. clear Hsc0.
    rewrite Hk in *. specialize (Hh ltac:(done)).
    destruct (deposit_dec m) as [Hm|[Hm1 Hm2]].
    + eapply deposit_inv in Hh; [|done|exact Hsc]. subst w'. unfold surplus. rewrite wupd_icx, supply_of_upd. cbn.
      rewrite decide_True, (supply_of_sc _ _ _ Hsc) by done. lia.
    + assert (v = 0) as -> by (destruct Hpay as [Hp|]; [by destruct m|done]).
      destruct (withdraw_dec m (frame ro s T 0 m KIcx)) as [(x & to & Hw)|Hw].
      * eapply withdraw_inv in Hh as (Hx & r2 & w2 & E & ->); [|exact Hw|exact Hsc].
        change (surplus (wlog _ _ w2) T) with (surplus w2 T).
        apply (IH _ _ _ _ _ _ _ _ T) in E; [|done|].
        2:{ apply kind_at_Some. eexists. split; [apply lookup_insert|]. done. }
        rewrite E. cbn [c_self frame]. rewrite decide_True by done.
        unfold surplus. rewrite wupd_icx, supply_of_upd. cbn. rewrite decide_True, (supply_of_sc _ _ _ Hsc) by done. lia.
      * assert (kind_at w' T = Some KIcx /\ surplus w' T = surplus w1 T) as [_ ->]; [|lia].
        revert HK1. refine (esteps_rel f KIcx (frame ro s T 0 m KIcx) m (fun w w' => kind_at w T = Some KIcx -> kind_at w' T = Some KIcx /\ surplus w' T = surplus w T) _ _ _ _ w1 w' sc Hsc Hk H).
        -- done.
        -- intros w2 w3 w4 A B C. destruct (A C) as [A1 A2]. destruct (B A1) as [B1 B2]. split; [done|congruence].
        -- cbn. intros w2 sc2 sc' evs Hs2 Hk2 Hl _. split.
           { apply kind_at_Some. eexists. split; [apply lookup_insert|]. apply lstep_kind in Hl. congruence. }
           unfold surplus. rewrite wupd_icx, supply_of_upd, decide_True, (supply_of_sc _ _ _ Hs2) by done.
           destruct Hl; try reflexivity; subst; try done.
           ++ tauto.
           ++ exfalso. by eapply Hw.
        -- cbn. intros ro' w2 w3 sc2 to v' m' r' Hs2 Hk2 [?|Hc] _ E HK2; [done|]. split; [by eapply exec_kind_at|].
           apply (IH _ _ _ _ _ _ _ _ T) in E; [|done|done]. rewrite E.
           assert (v' = 0) as ->; [|case_decide; lia].
           destruct Hc; try done. exfalso. by eapply Hw.
  - (* another contract runs *)
    assert (kind_at w' T = Some KIcx /\ surplus w' T = surplus w1 T) as [_ ->]; [|lia].
    revert HK1. refine (esteps_rel f (s_kind sc) (frame ro s t v m (s_kind sc)) m (fun w w' => kind_at w T = Some KIcx -> kind_at w' T = Some KIcx /\ surplus w' T = surplus w T) _ _ _ _ w1 w' sc Hsc eq_refl H).
    + done.
    + intros w2 w3 w4 A B C. destruct (A C) as [A1 A2]. destruct (B A1) as [B1 B2]. split; [done|congruence].
    + cbn. intros w2 sc2 sc' evs Hs2 Hk2 Hl HK2. split.
      { unfold kind_at in *. cbn. by rewrite lookup_insert_ne. }
      unfold surplus. by rewrite wupd_icx, supply_of_upd, decide_False.
    + cbn. intros ro' w2 w3 sc2 to v' m' r' Hs2 Hk2 _ _ E HK2. split; [by eapply exec_kind_at|].
      apply (IH _ _ _ _ _ _ _ _ T) in E; [|done|done]. rewrite E. rewrite decide_False by done. lia.
Qed.

Theorem surplus_tx fuel t w r w' T : is_contract T = true -> kind_at w T = Some KIcx ->
  run_tx adv fuel t w = Ok (r, w') -> surplus w' T = surplus w T.
Proof.
  intros HT HK H. enough (kind_at w T = Some KIcx -> kind_at w' T = Some KIcx /\ surplus w' T = surplus w T) as G by (by apply G).
  clear HK. eapply (tx_rel (fun w w' => kind_at w T = Some KIcx -> kind_at w' T = Some KIcx /\ surplus w' T = surplus w T)); [by auto| | | | | |exact H].
  - intros w2 w3 w4 A B C. destruct (A C) as [A1 A2]. destruct (B A1) as [B1 B2]. split; [done|congruence].
  - intros n to v m _ E HK. split; [by eapply exec_kind_at|]. apply (surplus_exec _ _ _ _ _ _ _ _ _ T) in E; [|done|done].
    rewrite E, decide_False; [lia|]. by intros <-.
  - intros n a i _ Ha Hf _ HK. assert (T <> SCORE a) as Hne.
    { intros ->. unfold kind_at in HK. by rewrite Hf in HK. }
    split; [unfold kind_at in *; cbn; by rewrite lookup_insert_ne|]. unfold surplus. by rewrite wupd_icx, supply_of_upd, decide_False.
  - intros n a i w1 sc cn wt sc' evs _ _ Hs Hk _ HK. assert (T <> SCORE a) as Hne.
    { intros ->. unfold kind_at in HK. rewrite Hs in HK. cbn in HK. congruence. }
    split; [unfold kind_at in *; cbn; by rewrite lookup_insert_ne|]. unfold surplus. by rewrite wupd_icx, supply_of_upd, decide_False.
  - intros n a i ro w1 w2 sc to m' r0 _ _ Hs Hk _ E HK. split; [by eapply exec_kind_at|].
    apply (surplus_exec _ _ _ _ _ _ _ _ _ T) in E; [|done|done]. rewrite E. case_decide; lia.
Qed.

Lemma tx_new_kind fuel t w r w' T k : run_tx adv fuel t w = Ok (r, w') -> kind_at w' T = Some k -> k <> KConv ->
  kind_at w T = Some k \/
  (w_scores w !! T = None /\ exists n a i, t = TDeploy n a i /\ T = SCORE a /\ a <> 0%N /\ init_ok i /\ install_kind i = k /\
     w' = wupd (SCORE a) (init_score i (EOA n) (SCORE a)).1 (init_score i (EOA n) (SCORE a)).2 w).
Proof.
  intros H HK Hk. destruct (w_scores w !! T) as [sc|] eqn:E.
  - left. destruct (ident_tx _ _ _ _ _ _ H _ _ E) as (sc' & E' & [Q _ _ _ _ _ _ _]).
    unfold kind_at in *. rewrite E. rewrite E' in HK. cbn in *. congruence.
  - right. split; [done|]. destruct t as [n to v m|n a i].
    + cbn in H. eapply exec_no_new in H; [|exact E]. unfold kind_at in HK. by rewrite H in HK.
    + apply deploy_inv in H as (Ha & Hf & Hi & H). exists n, a, i.
      destruct H as [->|(t & reg & fe & cn & wt & -> & Hcn & Hst)].
      * assert (T = SCORE a) as ->.
        { destruct (decide (T = SCORE a)) as [|Hne]; [done|]. unfold kind_at in HK. cbn in HK.
          rewrite lookup_insert_ne in HK by done. by rewrite E in HK. }
        repeat split; try done. unfold kind_at in HK. cbn in HK. rewrite lookup_insert in HK. cbn in HK.
        destruct i; cbn in HK |- *; congruence.
      * exfalso. assert (w_scores w' !! T = None \/ kind_at w' T = Some KConv) as [G|G].
        { set (w1 := wupd (SCORE a) _ _ w) in Hst.
          assert (w_scores w1 !! SCORE a = Some (init_score (IConv t reg fe (Some cn) wt) (EOA n) (SCORE a)).1) as Hs1 by apply lookup_insert.
          assert ((w_scores w1 !! T = None \/ kind_at w1 T = Some KConv)) as G1.
          { unfold kind_at, w1. cbn. destruct (decide (T = SCORE a)) as [->|].
            - right. by rewrite lookup_insert.
            - left. by rewrite lookup_insert_ne. }
          revert Hst. revert G1. generalize dependent w1. intros w1 Hs1 G1 Hst. revert G1.
          refine (esteps_rel fuel KConv (Ctx (SCORE a) (EOA n) 0 false) (MAddConnector cn wt false) (fun w w' => w_scores w !! T = None \/ kind_at w T = Some KConv -> w_scores w' !! T = None \/ kind_at w' T = Some KConv)
            _ _ _ _ w1 w' _ Hs1 eq_refl Hst); [done|auto| |]; cbn.
          - intros w2 sc sc' evs Hs _ Hl G. unfold kind_at in *. cbn. destruct (decide (T = SCORE a)) as [->|].
            + rewrite Hs in G. rewrite lookup_insert. right. apply lstep_kind in Hl. destruct G as [?|G]; [done|]. cbn in *. congruence.
            + rewrite lookup_insert_ne by done. done.
          - intros ro w2 w3 sc to v m' r0 _ _ _ _ E2 [G|G]; [left; by eapply exec_no_new|right; by eapply exec_kind_at]. }
        -- unfold kind_at in HK. by rewrite G in HK.
        -- congruence.
Qed.

Theorem icx_backed w T : reachable adv w -> kind_at w T = Some KIcx -> icx w T = supply_of w T.
Proof.
  intros Hr. enough (forall T, kind_at w T = Some KIcx -> surplus w T = 0) as G.
  { intros HK. specialize (G T HK). unfold surplus in G. lia. }
  clear T. revert w Hr. apply (reachable_ind adv (fun w => forall T, kind_at w T = Some KIcx -> surplus w T = 0)).
  - intros w (H & _) T HK. unfold kind_at in HK. by rewrite H in HK.
  - intros fuel t w r w' Hr IH E T HK.
    destruct (tx_new_kind _ _ _ _ _ _ _ E HK ltac:(done)) as [HK'|(Hn & n & a & i & -> & -> & Ha & Hi & Hki & ->)].
    + assert (is_contract T = true) as HT.
      { apply kind_at_Some in HK' as (sc & Hsc & _). by destruct (scores_at _ _ _ _ Hr Hsc) as (x & -> & _). }
      rewrite (surplus_tx _ _ _ _ _ _ HT HK' E). by apply IH.
    + destruct i; try done. unfold surplus. rewrite wupd_icx, supply_of_upd, decide_True by done. cbn.
      rewrite (no_code_reachable w (SCORE a) Hr); [done|done].
Qed.

(* ------------------------------------------------- C18: supply by events ---- *)
Definition unlogged (w : world) (T : addr) : Z := supply_of w T - net_issued T (w_log w).
Lemma net_app T l l' : net_issued T (l ++ l') = net_issued T l + net_issued T l'.
Proof. unfold net_issued. by rewrite map_app, sum_app. Qed.
Lemma net_other T a evs : a <> T -> net_issued T (map (pair a) evs) = 0.
Proof.
  intros H. unfold net_issued. induction evs as [|e evs IH]; [done|]. cbn. unfold sum_Z in *. cbn. rewrite IH.
  by rewrite decide_False.
Qed.
Lemma unlogged_upd w a sc evs T :
  unlogged (wupd a sc evs w) T =
  (if decide (T = a) then s_supply sc - net_issued T (map (pair a) evs) - net_issued T (w_log w) else unlogged w T).
Proof.
  unfold unlogged. rewrite supply_of_upd. cbn [w_log wupd]. rewrite net_app. case_decide as E; [lia|].
  rewrite net_other by done. lia.
Qed.
Lemma net_self T evs : net_issued T (map (pair T) evs) =
  sum_Z (map (fun e => match e with EvIssuance v => v | EvDestruction v => - v | _ => 0 end) evs).
Proof.
  unfold net_issued. rewrite map_map. f_equal. apply map_ext. intros e. by rewrite decide_True.
Qed.
Theorem unlogged_exec fuel : forall ro s t v m w r w' T,
  exec adv fuel ro s t v m w = Ok (r, w') -> unlogged w' T = unlogged w T.
Proof.
  induction fuel as [|f IH]; intros ro s t v m w r w' T H; [done|].
  apply exec_inv in H as (w1 & H1 & _ & H); [|apply exec_keeps].
  pose proof (move_icx_scores _ _ _ _ _ _ H1) as ES. pose proof (move_icx_log _ _ _ _ _ _ H1) as EL.
  assert (unlogged w1 T = unlogged w T) as E1.
  { unfold unlogged, supply_of, var. by rewrite ES, EL. }
  destruct H as [(n & -> & _ & ->)|(sc & Ht & Hsc & _ & Hpay & Hh & _ & H)]; [done|].
  rewrite <- E1. clear E1 H1 ES EL.
  assert ((s_kind sc = KIcx /\ exists x to, is_withdraw m (frame ro s t v m (s_kind sc)) x to) \/
          (s_kind sc = KIcx -> forall x to, ~ is_withdraw m (frame ro s t v m (s_kind sc)) x to)) as [[Hk (x & to & Hw)]|Hw].
  { destruct (decide (s_kind sc = KIcx)); [|by right].
    destruct (withdraw_dec m (frame ro s t v m (s_kind sc))) as [?|?]; [by left|by right]. }
  - rewrite Hk in *. eapply withdraw_inv in Hh as (Hx & r2 & w2 & E & ->); [|exact Hw|exact Hsc|done].
    apply (IH _ _ _ _ _ _ _ _ T) in E. rewrite unlogged_upd in E. cbn [c_self frame] in E.
    unfold unlogged at 1. cbn [w_log wlog]. change (supply_of (wlog _ _ w2) T) with (supply_of w2 T).
    change ((c_self (frame ro s t v m KIcx), EvDestruction x) :: w_log w2) with ([(t, EvDestruction x)] ++ w_log w2).
    rewrite net_app. unfold unlogged in E |- *. case_decide as HT.
    + subst t. rewrite (supply_of_sc _ _ _ Hsc).
      change [(T, EvDestruction x)] with (map (pair T) [EvDestruction x]). rewrite net_self. cbn in E |- *.
      unfold net_issued, sum_Z in *. cbn in *. lia.
    + change [(t, EvDestruction x)] with (map (pair t) [EvDestruction x]). rewrite net_other by done. lia.
  - refine (esteps_rel f (s_kind sc) (frame ro s t v m (s_kind sc)) m (fun w w' => unlogged w' T = unlogged w T) _ _ _ _ w1 w' sc Hsc eq_refl H).
    + done.
    + intros. congruence.
    + cbn. intros w2 sc2 sc' evs Hs2 Hk2 Hl. rewrite unlogged_upd. case_decide as HT; [|done]. subst t.
      unfold unlogged. rewrite (supply_of_sc _ _ _ Hs2), net_self.
      destruct Hl; try (cbn; lia).
      all: exfalso; eapply Hw; [done|]; done.
    + cbn. intros. by eapply IH.
Qed.
Theorem unlogged_tx fuel t w r w' T : w_scores w !! T <> None -> run_tx adv fuel t w = Ok (r, w') -> unlogged w' T = unlogged w T.
Proof.
  intros HT H. enough (w_scores w !! T <> None -> w_scores w' !! T <> None /\ unlogged w' T = unlogged w T) as G by (by apply G).
  clear HT. eapply (tx_rel (fun w w' => w_scores w !! T <> None -> w_scores w' !! T <> None /\ unlogged w' T = unlogged w T)); [by auto| | | | | |exact H].
  - intros w2 w3 w4 A B C. destruct (A C) as [A1 A2]. destruct (B A1) as [B1 B2]. split; [done|congruence].
  - intros n to v m _ E HK. split; [|by eapply unlogged_exec].
    destruct (w_scores w !! T) eqn:ET; [|done]. destruct (exec_keeps adv _ _ _ _ _ _ _ _ _ _ _ E ET) as [? ->]. done.
  - intros n a i _ Ha Hf _ HK. assert (T <> SCORE a) as Hne by congruence.
    split; [cbn; by rewrite lookup_insert_ne|]. by rewrite unlogged_upd, decide_False.
  - intros n a i w1 sc cn wt sc' evs _ _ Hs Hk Hl HK. rewrite unlogged_upd. cbn. case_decide as E.
    + subst T. rewrite lookup_insert. split; [done|]. inversion Hl; subst; try done; try (by destruct_or!).
      unfold unlogged. rewrite (supply_of_sc _ _ _ Hs), net_self. cbn. lia.
    + by rewrite lookup_insert_ne.
  - intros n a i ro w1 w2 sc to m' r0 _ _ Hs Hk _ E HK. split; [|by eapply unlogged_exec].
    destruct (w_scores w1 !! T) eqn:ET; [|done]. destruct (exec_keeps adv _ _ _ _ _ _ _ _ _ _ _ E ET) as [? ->]. done.
Qed.
(* nothing is logged by an address without contract *)
Lemma tx_log_from fuel t w r w' : run_tx adv fuel t w = Ok (r, w') ->
  (forall a e, (a, e) ∈ w_log w -> w_scores w !! a <> None) -> (forall a e, (a, e) ∈ w_log w' -> w_scores w' !! a <> None).
Proof.
  intros H. set (L := fun w => forall a e, (a, e) ∈ w_log w -> w_scores w !! a <> None).
  assert (forall a sc evs w, L w -> L (wupd a sc evs w)) as LU.
  { intros a sc evs w0 H0 b e. cbn. rewrite elem_of_app. intros [Hb|Hb].
    - apply elem_of_list_fmap in Hb as (e' & [= -> ->] & _). by rewrite lookup_insert.
    - destruct (decide (b = a)) as [->|]; [by rewrite lookup_insert|]. rewrite lookup_insert_ne by done. by eapply H0. }
  eapply (tx_ind adv (fun _ => True) (fun _ _ _ _ => True) (fun w w' => L w -> L w')); try done; eauto.
  - intros s0 t0 v0 m0 w0 w0' _ _ Hm H0. unfold L. by rewrite (move_icx_scores _ _ _ _ _ _ Hm), (move_icx_log _ _ _ _ _ _ Hm).
  - destruct t; [exact I|]. by destruct i as [| | |? ? ? [] ?| | |].
Qed.
Lemma log_from w a e : reachable adv w -> (a, e) ∈ w_log w -> w_scores w !! a <> None.
Proof.
  intros Hr. revert a e. revert w Hr. apply (reachable_ind adv (fun w => forall a e, (a, e) ∈ w_log w -> w_scores w !! a <> None)).
  - intros w (_ & H & _) a e Ha. rewrite H in Ha. by apply elem_of_nil in Ha.
  - intros fuel t w r w' _ IH E. by eapply tx_log_from.
Qed.
Lemma net_none T l : (forall e, (T, e) ∉ l) -> net_issued T l = 0.
Proof.
  intros H. unfold net_issued. induction l as [|[a e] l IH]; [done|]. cbn. unfold sum_Z in *. cbn.
  rewrite IH by (intros e' He; apply (H e'); set_solver). rewrite decide_False; [done|].
  intros ->. apply (H e). set_solver.
Qed.
(* at deployment *)
Lemma unlogged_deploy fuel n a i w r w' : reachable adv w -> run_tx adv fuel (TDeploy n a i) w = Ok (r, w') ->
  w_scores w' !! SCORE a <> None /\
  unlogged w' (SCORE a) = match i with IIrc _ _ x e | IFlex _ _ x e => x * 10 ^ e | _ => 0 end.
Proof.
  intros Hr H. pose proof (fun e => log_from w (SCORE a) e Hr) as HL.
  apply deploy_inv in H as (Ha & Hf & Hi & H).
  set (w1 := wupd (SCORE a) (init_score i (EOA n) (SCORE a)).1 (init_score i (EOA n) (SCORE a)).2 w) in *.
  assert (unlogged w1 (SCORE a) = match i with IIrc _ _ x e | IFlex _ _ x e => x * 10 ^ e | _ => 0 end) as E1.
  { unfold w1. rewrite unlogged_upd, decide_True, net_self by done.
    rewrite net_none by (intros e He; by apply (HL e He)). destruct i; cbn; lia. }
  assert (w_scores w1 !! SCORE a <> None) as S1 by (cbn; by rewrite lookup_insert).
  destruct H as [->|(t & reg & fe & cn & wt & -> & Hcn & Hst)]; [done|].
  rewrite <- E1.
  assert (w_scores w1 !! SCORE a = Some (init_score (IConv t reg fe (Some cn) wt) (EOA n) (SCORE a)).1) as Hs1 by apply lookup_insert.
  revert S1. refine (esteps_rel fuel KConv (Ctx (SCORE a) (EOA n) 0 false) (MAddConnector cn wt false)
    (fun w w' => w_scores w !! SCORE a <> None -> w_scores w' !! SCORE a <> None /\ unlogged w' (SCORE a) = unlogged w (SCORE a)) _ _ _ _ w1 w' _ Hs1 eq_refl Hst).
  - done.
  - intros w2 w3 w4 A B C. destruct (A C) as [A1 A2]. destruct (B A1) as [B1 B2]. split; [done|congruence].
  - cbn. intros w2 sc sc' evs Hs _ Hl _. rewrite lookup_insert. split; [done|]. rewrite unlogged_upd, decide_True by done.
    inversion Hl; subst; try done; try (by destruct_or!).
    unfold unlogged. rewrite (supply_of_sc _ _ _ Hs), net_self. cbn. lia.
  - cbn. intros ro w2 w3 sc to v m' r0 Hs _ _ _ E _. split; [|by eapply unlogged_exec].
    destruct (exec_keeps adv _ _ _ _ _ _ _ _ _ _ _ E Hs) as [? ->]. done.
Qed.
Theorem supply_by_events fuel n a i w r w1 w2 : reachable adv w ->
  run_tx adv fuel (TDeploy n a i) w = Ok (r, w1) -> later adv w1 w2 ->
  supply_of w2 (SCORE a) = match i with IIrc _ _ x e | IFlex _ _ x e => x * 10 ^ e | _ => 0 end + net_issued (SCORE a) (w_log w2).
Proof.
  intros Hr H Hl. destruct (unlogged_deploy _ _ _ _ _ _ _ Hr H) as [H1 H2].
  enough (w_scores w2 !! SCORE a <> None /\ unlogged w2 (SCORE a) = unlogged w1 (SCORE a)) as [_ G].
  { rewrite <- H2, <- G. unfold unlogged. lia. }
  clear H2 H. induction Hl as [w1|w1 w3 w2 (fl & t & ->) _ IH]; [done|].
  unfold apply_tx in IH. destruct (run_tx adv fl t w1) as [[r' w1']|] eqn:E; [|by apply IH].
  pose proof (unlogged_tx _ _ _ _ _ _ H1 E) as <-. apply IH.
  destruct (w_scores w1 !! SCORE a) as [sc|] eqn:Es; [|done].
  destruct (ident_tx _ _ _ _ _ _ E _ _ Es) as (sc' & -> & _). done.
Qed.
End money.
