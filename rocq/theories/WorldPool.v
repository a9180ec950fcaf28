(* Supply and reserves of a converter, over transactions of outsiders (C62). *)
From Coq Require Import String Ascii ZArith Lia.
From stdpp Require Import base countable list numbers strings gmap relations.
From Verif Require Import Res FormulaConsts FormulaModel PoolSpec Codec World WorldBasics WorldSteps WorldExec WorldSpec WorldInv WorldMoney WorldAuth WorldNet WorldCalls WorldViews WorldConv WorldHop WorldOwner WorldMore TradingSpec.
Local Open Scope Z_scope.
Local Open Scope M_scope.

(* ------------------------------------------------------------- trades compose ---- *)
Section trades.
Context {I : Type} (conns : list I) (weight : I -> Z).
Definition same_pool (p q : pool I) : Prop := supply q = supply p /\ forall k, reserve_of q k = reserve_of p k.
Lemma moved_ext i x (f g g' : I -> Z) : (forall k, g' k = g k) -> moved i x f g -> moved i x f g'.
Proof. intros H [A B]. split; [by rewrite H|]. intros k Hk. rewrite H. by apply B. Qed.
Lemma trades_trans n m p q r : trades conns weight n p q -> trades conns weight m q r -> trades conns weight (m + n) p r.
Proof.
  intros H1 H2. induction H2 as [q r S R|m q r r' H2 IH Ht|m q r r' H2 IH Hg].
  - destruct H1 as [p q S1 R1|n p q q' H1 Ht|n p q q' H1 Hg].
    + constructor; [congruence|]. intros k. by rewrite R, R1.
    + eapply one_more_trade; [exact H1|]. destruct Ht as [i d x got p' q' Hi Hd Hr|i s x got p' q' Hi Hs Hr|i j a x got p' q' f Hi Hj Hij Ha Hr].
      * eapply purchase; [eassumption|eassumption|eassumption|eassumption|congruence|by eapply moved_ext].
      * eapply sale; [eassumption|eassumption|eassumption|eassumption|congruence|by eapply moved_ext].
      * eapply cross; [exact Hi|exact Hj|exact Hij|exact Ha|exact Hr|eassumption|congruence|eassumption|by eapply moved_ext].
    + eapply one_more_gift; [exact H1|]. destruct Hg.
      * eapply donation; [eassumption|eassumption|congruence|by eapply moved_ext].
      * eapply destruction; [eassumption|congruence|]. intros k. rewrite R. eauto.
  - cbn. by eapply one_more_trade; [apply IH|].
  - by eapply one_more_gift; [apply IH|].
Qed.
End trades.
Arguments same_pool {I}.

Lemma weight_ext {I} (conns : list I) (wt wt' : I -> Z) n p q : (forall i, In i conns -> wt' i = wt i) ->
  trades conns wt n p q -> trades conns wt' n p q.
Proof.
  intros E H. induction H as [p q S R|n p q q' H IH Ht|n p q q' H IH Hg].
  - by constructor.
  - eapply one_more_trade; [exact IH|]. destruct Ht as [i d r got p' q' Hi Hd Hr|i s r got p' q' Hi Hs Hr|i j a r got p' q' f Hi Hj Hij Ha Hr].
    + rewrite <- E in Hr by done. eapply purchase; eassumption.
    + rewrite <- E in Hr by done. eapply sale; eassumption.
    + rewrite <- !E in Hr by done. eapply cross; [exact Hi|exact Hj|exact Hij|exact Ha|exact Hr|eassumption..].
  - by eapply one_more_gift.
Qed.

Lemma fee_split_bounds fee y k x z : 0 <= fee <= 1000000 -> 0 <= y -> 0 <= k -> fee_split fee y k = Some (x, z) -> 0 <= x <= y.
Proof.
  intros Hf Hy Hk H. unfold fee_split in H. destruct (final_amount fee y k <=? y) eqn:E; [|done]. injection H as <- _.
  destruct (final_amount_spec fee y k) as [? _]; done.
Qed.

Section pool.
Variable adv : adversary.
Variables (w0 : world) (n0 : N) (C : addr).
Hypothesis Hreach : reachable adv w0.
Hypothesis Hset : pool_set_up w0 C.
Hypothesis Hout : stranger w0 C (EOA n0).
Notation F := (token_of w0 C).
Notation R := (registry_of w0 C).
Notation conns := (connectors_of w0 C).
Notation weight := (fun t => cn_weight (connector_of w0 C t)).
Notation sinv := (sinv w0 n0).
Notation scall := (scall w0 n0).
Notation guarded := (guarded w0 n0).

Record pinv (w : world) : Prop := {
  p_token : token_of w C = F;
  p_reg : registry_of w C = R;
  p_conns : connectors_of w C = conns;
  p_conn : forall t, connector_of w C t = connector_of w0 C t;
  p_fee : fee_of w C = fee_of w0 C;
  p_mgr : manager_of w C = manager_of w0 C;
  p_pmgr : pending_manager_of w C = pending_manager_of w0 C;
  p_allow : registry_updates_allowed w C = registry_updates_allowed w0 C;
  p_addrs : guarded R -> forall n, registered w R n = registered w0 R n }.
Definition RR (w w' : world) : Prop := sinv w -> pinv w -> sinv w' /\ pinv w' /\
  exists n, conversions w' C = (n + conversions w C)%nat /\ trades conns weight n (pool_of w C) (pool_of w' C).

Lemma RR_refl w : RR w w.
Proof. intros A B. split; [done|]. split; [done|]. exists 0%nat. split; [done|by constructor]. Qed.
Lemma RR_trans w1 w2 w3 : RR w1 w2 -> RR w2 w3 -> RR w1 w3.
Proof.
  intros A B S1 P1. destruct (A S1 P1) as (S2 & P2 & n & E & T). destruct (B S2 P2) as (S3 & P3 & m & E' & T').
  split; [done|]. split; [done|]. exists (m + n)%nat. split; [lia|]. by eapply trades_trans.
Qed.
Lemma no_eoa : forall n, w_scores w0 !! EOA n = None.
Proof. intros n. destruct (w_scores w0 !! EOA n) eqn:E; [|done]. destruct (scores_at _ _ _ _ Hreach E) as (k & ? & _). done. Qed.
Lemma no_zero : w_scores w0 !! zero_score = None.
Proof. destruct (w_scores w0 !! zero_score) eqn:E; [|done]. destruct (scores_at _ _ _ _ Hreach E) as (k & [= ->] & ?). done. Qed.

Definition tok (t : addr) : Prop := t = F \/ t ∈ conns.
Lemma kC : kind_at w0 C = Some KConv. Proof. apply Hset. Qed.
Lemma kF : kind_at w0 F = Some KFlex. Proof. apply Hset. Qed.
Lemma kR : kind_at w0 R = Some KReg. Proof. apply Hset. Qed.
Lemma tok_token t : tok t -> is_token w0 t.
Proof. intros [->|H]; [right; right; apply kF|]. by apply Hset. Qed.
Lemma sinv_is_token w t : sinv w -> is_token w0 t -> is_token w t.
Proof. intros HI [E|[E|E]]; apply (si_kind _ _ _ HI) in E; unfold is_token; auto. Qed.
Lemma kind_c w a k : sinv w -> kind_at w0 a = Some k -> is_contract a = true.
Proof. intros HI H. by destruct (kind_contract adv w0 a k Hreach H). Qed.
Lemma conn_facts : NoDup conns /\ (forall t, cn_set (connector_of w0 C t) = true <-> t ∈ conns) /\
  (forall t, t ∈ conns -> 0 < cn_weight (connector_of w0 C t) <= 1000000 /\ t <> F) /\ 0 <= fee_of w0 C <= 1000000.
Proof.
  pose proof kC as K. unfold kind_at in K. destruct (w_scores w0 !! C) as [sc|] eqn:Hsc; [|done].
  destruct (conn_reachable _ _ _ _ Hreach Hsc) as [A1 A2 A3 A4 _ _ _ A5 A6].
  unfold connectors_of, connector_of, token_of, fee_of, var. rewrite Hsc.
  split; [done|]. split; [done|]. split; [|lia]. intros t Ht. apply A2 in Ht. split; [by apply A3|]. by apply A4.
Qed.
Lemma C_not_tok : ~ tok C.
Proof. intros H. apply tok_token in H. pose proof kC. destruct H as [E|[E|E]]; congruence. Qed.
Lemma R_not_tok : ~ tok R.
Proof. intros H. apply tok_token in H. pose proof kR. destruct H as [E|[E|E]]; congruence. Qed.
Lemma C_not_R : C <> R.
Proof. intros E. pose proof kC as K1. pose proof kR as K2. rewrite <- E in K2. congruence. Qed.
Lemma gC : guarded C.
Proof. split; [exists KConv; by split; [apply kC|]|]. apply Hout. auto. Qed.
Lemma gF : guarded F.
Proof. split; [exists KFlex; by split; [apply kF|]|]. apply Hout. auto. Qed.
Lemma gR : registry_updates_allowed w0 C = true -> guarded R.
Proof. intros E. split; [exists KReg; by split; [apply kR|]|]. apply Hout. auto. Qed.
Lemma gT t : t ∈ conns -> kind_at w0 t = Some KFlex -> guarded t.
Proof. intros H K. split; [by exists KFlex|]. apply Hout. auto. Qed.
Lemma owner_F w : sinv w -> owner_of w F = C.
Proof. intros HI. rewrite (si_owner _ _ _ HI _ gF). apply Hset. Qed.
Lemma pinv_conv w : sinv w -> pinv w -> conv_at w C /\ is_contract (registry_of w C) = true /\ kind_at w (registry_of w C) = Some KReg.
Proof.
  intros HI HP. unfold conv_at. rewrite (p_reg _ HP), (p_token _ HP).
  repeat split; try (by eapply kind_c; [exact HI|first [apply kC|apply kF|apply kR]]); apply (si_kind _ _ _ HI); [apply kC|apply kF|apply kR].
Qed.
Lemma pinv_active w : sinv w -> pinv w -> active w C.
Proof. intros HI HP. unfold active. rewrite (p_token _ HP). by apply owner_F. Qed.
Lemma is_conn_iff w t : pinv w -> is_connector w C t <-> t ∈ conns.
Proof. intros HP. unfold is_connector. rewrite (p_conn _ HP). apply conn_facts. Qed.

(* a state that agrees on C, R and the pool *)
Lemma RR_same w w' : (sinv w -> sinv w') -> w_scores w' !! C = w_scores w !! C ->
  (guarded R -> sinv w -> forall sc sc', w_scores w !! R = Some sc -> w_scores w' !! R = Some sc' -> s_addrs sc' = s_addrs sc) ->
  (sinv w -> pinv w -> trades conns weight 0 (pool_of w C) (pool_of w' C)) ->
  conversions w' C = conversions w C -> RR w w'.
Proof.
  intros HS EC ER HT EN HI HP. pose proof (HS HI) as HI'. split; [done|]. split.
  - assert (forall X (d : X) g, var d g w' C = var d g w C) as EV by (intros; unfold var; by rewrite EC).
    destruct HP as [A1 A2 A3 A4 A5 A5' A6 A7 A8].
    split; [rewrite <- A1|rewrite <- A2|rewrite <- A3|intros t; rewrite <- A4|rewrite <- A5|rewrite <- A5'|rewrite <- A6|rewrite <- A7|]; try apply EV.
    + intros HG n. rewrite <- (A8 HG). unfold registered, var.
      pose proof (si_kind _ _ _ HI _ _ kR) as K1. pose proof (si_kind _ _ _ HI' _ _ kR) as K2. unfold kind_at in K1, K2.
      destruct (w_scores w !! R) eqn:E1, (w_scores w' !! R) eqn:E2; try done. by rewrite (ER HG HI _ _ eq_refl eq_refl).
  - exists 0%nat. split; [done|]. by apply HT.
Qed.

Lemma conversions_upd a sc evs w : a <> C -> conversions (wupd a sc evs w) C = conversions w C.
Proof.
  intros Ha. unfold conversions, wupd. cbn [w_log]. f_equal. f_equal. unfold own_events.
  induction evs as [|e evs IH]; [done|]. cbn. by rewrite decide_False by done.
Qed.
Lemma pool_of_upd w t sc evs : t <> C -> pinv w ->
  pool_of (wupd t sc evs w) C = Pool (supply_of (wupd t sc evs w) F) (fun k => if decide (k ∈ conns) then balance_of (wupd t sc evs w) k C else 0).
Proof.
  intros Ht HP. assert (token_of (wupd t sc evs w) C = F) as E1.
  { unfold token_of at 1. rewrite var_upd, decide_False by done. apply HP. }
  assert (connectors_of (wupd t sc evs w) C = conns) as E2.
  { unfold connectors_of at 1. rewrite var_upd, decide_False by done. apply HP. }
  unfold pool_of. by rewrite E1, E2.
Qed.
Lemma pool_of_pinv w : pinv w -> pool_of w C = Pool (supply_of w F) (fun k => if decide (k ∈ conns) then balance_of w k C else 0).
Proof. intros HP. unfold pool_of. by rewrite (p_token _ HP), (p_conns _ HP). Qed.
Lemma pool_upd w t sc sc' evs : w_scores w !! t = Some sc -> t <> C -> pinv w ->
  (t = F -> s_supply sc' = s_supply sc) -> (t ∈ conns -> balance sc' C = balance sc C) ->
  same_pool (pool_of w C) (pool_of (wupd t sc' evs w) C).
Proof.
  intros Hsc Ht HP HF HB. rewrite pool_of_upd, pool_of_pinv by done. unfold same_pool. cbn [supply reserve_of]. split.
  - unfold supply_of. rewrite var_upd. case_decide as E; [|done]. rewrite E. rewrite (var_sc _ _ _ _ _ Hsc). by apply HF.
  - intros k. cbv beta. destruct (decide (k ∈ conns)) as [Hk|]; [|done]. rewrite balance_of_upd. case_decide as E; [|done].
    subst k. rewrite (balance_of_sc _ _ _ _ Hsc). by apply HB.
Qed.
Lemma same_trades p q : same_pool p q -> trades conns weight 0 p q.
Proof. intros [A B]. by constructor. Qed.

Lemma local_step w k c m sc sc' evs : scall (c_sender c) (c_self c) (c_value c) m -> c_sender c <> C -> c_self c <> C ->
  is_contract (c_self c) = true -> w_scores w !! c_self c = Some sc -> s_kind sc = k ->
  ~ (tok (c_self c) /\ exists x d, m = MTransfer C x d) ->
  lstep k c m sc sc' evs -> RR w (wupd (c_self c) sc' evs w).
Proof.
  intros HA Hs Ht Hc Hsc Hk Hm Hl HI0 HP0. revert HI0 HP0.
  assert (sinv w -> sinv (wupd (c_self c) sc' evs w)) as HS.
  { intros HI. by eapply (sinv_local _ _ no_zero w _ c). }
  assert (sinv w -> pinv w -> RR w (wupd (c_self c) sc' evs w)) as G; [|intros HI HP; by apply G].
  intros HI HP.
  assert (trades conns weight 0 (pool_of w C) (pool_of (wupd (c_self c) sc' evs w) C)) as HT.
  { destruct (decide (c_self c = F)) as [EF|NF]; [|destruct (decide (c_self c ∈ conns)) as [EC|NC]].
    - (* the flexible token *)
      assert (s_kind sc = KFlex) as KF.
      { pose proof (si_kind _ _ _ HI _ _ kF) as E. rewrite <- EF in E. unfold kind_at in E. rewrite Hsc in E. cbn in E. congruence. }
      assert (c_self c ∉ conns) as Hnc.
      { intros E. destruct conn_facts as (_ & _ & H & _). by destruct (H _ E) as [_ ?]. }
      assert (s_owner sc = C) as HO.
      { pose proof (owner_F _ HI) as E. rewrite <- EF in E. by rewrite (owner_of_sc _ _ _ Hsc) in E. }
      assert (s_supply sc' = s_supply sc -> trades conns weight 0 (pool_of w C) (pool_of (wupd (c_self c) sc' evs w) C)) as Hsame.
      { intros E. apply same_trades. by eapply pool_upd. }
      destruct Hl; try (apply Hsame; reflexivity); try congruence.
      (* destroy *)
      eapply one_more_gift; [by apply same_trades|]. eapply (destruction _ v); [lia| |].
      + rewrite pool_of_upd, pool_of_pinv by done. cbn [supply]. unfold supply_of. rewrite var_upd, decide_True by done. rewrite <- EF. rewrite (var_sc _ _ _ _ _ Hsc). cbn. lia.
      + intros t. rewrite pool_of_upd, pool_of_pinv by done. cbn [reserve_of]. destruct (decide (t ∈ conns)) as [Hin|]; [|done].
        rewrite balance_of_upd, decide_False; [done|]. intros ->. done.
    - (* a connector *)
      assert (balance sc' C = balance sc C -> trades conns weight 0 (pool_of w C) (pool_of (wupd (c_self c) sc' evs w) C)) as Hsame.
      { intros E. apply same_trades. eapply pool_upd; try done. }
      destruct Hl; try (apply Hsame; reflexivity).
      + apply Hsame. rewrite !balance_add. rewrite (decide_False (P := C = to)), decide_False; [lia|done|]. intros <-. apply Hm. split; [by right|eauto].
      + apply Hsame. rewrite balance_set_supply, balance_add, decide_False by done. lia.
      + apply Hsame. rewrite balance_set_supply, balance_add, decide_False by done. lia.
      + (* issue *)
        destruct (decide (C = to)) as [<-|Hne]; [|apply Hsame; rewrite balance_set_supply, balance_add, decide_False by done; lia].
        eapply one_more_gift; [by apply same_trades|]. eapply (donation _ (c_self c) v); [by apply elem_of_list_In|lia| |].
        * rewrite pool_of_upd, pool_of_pinv by done. cbn [supply]. unfold supply_of. rewrite var_upd, decide_False by done. done.
        * rewrite pool_of_upd, pool_of_pinv by done. unfold moved. cbn [reserve_of]. rewrite !decide_True by done. split.
          -- rewrite balance_of_upd, decide_True, (balance_of_sc _ _ _ _ Hsc), balance_set_supply, balance_add, decide_True by done. done.
          -- intros t Hne. destruct (decide (t ∈ conns)); [|done]. by rewrite balance_of_upd, decide_False.
      + (* destroy *)
        destruct (decide (C = from)) as [<-|Hne]; [|apply Hsame; rewrite balance_set_supply, balance_add, decide_False by done; lia].
        exfalso. match goal with H : _ \/ c_sender c = s_owner _ |- _ => destruct H as [?|H3] end; [done|].
        assert (kind_at w0 (c_self c) = Some KFlex) as K0.
        { destruct (tok_token _ (or_intror EC)) as [E|[E|E]]; [| |done]; pose proof (si_kind _ _ _ HI _ _ E) as E'; unfold kind_at in E'; rewrite Hsc in E'; cbn in E'; congruence. }
        pose proof (gT _ EC K0) as HG. pose proof (si_owner _ _ _ HI _ HG) as EO. rewrite (owner_of_sc _ _ _ Hsc) in EO.
        destruct HA as (_ & _ & HA). destruct HA as [_ HA]; [rewrite H3, EO; apply HG|]. match goal with H : m = _ |- _ => specialize (HA _ _ H) end. congruence.
    - apply same_trades. eapply pool_upd; try done. }
  apply RR_same; try done.
  - cbn. by rewrite lookup_insert_ne.
  - cbn. intros HG _ sc1 sc2 H1 H2. destruct (decide (c_self c = R)) as [ER|NR].
    + rewrite ER in Hsc, H2. rewrite lookup_insert in H2. injection H2 as <-. assert (sc1 = sc) as -> by congruence.
      destruct Hl; try reflexivity.
      * exfalso. subst. destruct (guarded_admin _ _ _ _ _ c _ _ _ HI HG Hsc HA eq_refl). congruence.
      * exfalso. subst. destruct (guarded_admin _ _ _ _ _ c _ _ _ HI HG Hsc HA eq_refl). congruence.
    + rewrite lookup_insert_ne in H2 by done. congruence.
  - by apply conversions_upd.
Qed.

Lemma pinv_upd w t sc evs : t <> C -> (t = R -> s_addrs sc = var ∅ s_addrs w R) -> pinv w -> pinv (wupd t sc evs w).
Proof.
  intros Ht HR [A1 A2 A3 A4 A5 A5' A6 A7 A8].
  assert (forall X (d : X) g, var d g (wupd t sc evs w) C = var d g w C) as EV by (intros; by rewrite var_upd, decide_False).
  split; [rewrite <- A1|rewrite <- A2|rewrite <- A3|intros a; rewrite <- A4|rewrite <- A5|rewrite <- A5'|rewrite <- A6|rewrite <- A7|]; try apply EV.
  intros HG n. rewrite <- (A8 HG). unfold registered. rewrite var_upd. case_decide as E; [|done]. rewrite HR by done. unfold var. by destruct (w_scores w !! R).
Qed.
(* ------------------------------------------------------- calls to the converter ---- *)
Lemma require_active_inv f c w u w' : conv_at w (c_self c) -> require_active (exec adv f) c w = Ok (u, w') -> w' = w.
Proof.
  intros HC H. unfold require_active in H. apply bind_Ok in H as (b & w1 & H1 & H). apply is_active_inv in H1 as [_ ->]; [|done].
  by apply require_Ok in H as [_ ->].
Qed.
Lemma valid_connector_inv c t w u w' : require_valid_connector c t w = Ok (u, w') -> is_connector w (c_self c) t /\ w' = w.
Proof. intros H. unfold require_valid_connector in H. mrun H. unfold is_connector. by rewrite (connector_of_sc _ _ _ _ Hsc). Qed.

Lemma fallback_tok f c from x d w r w' : sinv w -> pinv w -> c_self c = C -> conv_tokenFallback (exec adv f) c from x d w = Ok (r, w') ->
  0 < x /\ tok (c_sender c) /\ exists to min, conv_request d = Some (to, min) /\ tok to.
Proof.
  intros HI HP Ec H. destruct (pinv_conv _ HI HP) as (HC & HR1 & HR2). rewrite <- Ec in HC, HR1, HR2.
  apply conv_fallback_inv in H as [Hx H]; try done. split; [done|].
  destruct H as [(_ & _ & Hn & _)|(Hn & to & min & y & Hq & _ & _ & _ & _ & H)].
  { rewrite Ec in Hn. exfalso. apply Hn. by apply pinv_active. }
  rewrite Ec, (p_token _ HP) in H. case_decide as E1; [|case_decide as E2].
  - unfold buy, get_purchase_return in H. apply bind_Ok in H as (a & w1 & H & _).
    apply bind_Ok in H as (u & w2 & H1 & H). apply require_active_inv in H1 as ->; [|done].
    apply bind_Ok in H as (u2 & w2 & H1 & _). apply valid_connector_inv in H1 as [H1 _]. rewrite Ec in H1. apply is_conn_iff in H1; [|done].
    split; [by right|]. exists to, min. split; [done|by left].
  - unfold sell, get_sale_return in H. apply bind_Ok in H as (a & w1 & H & _).
    apply bind_Ok in H as (u & w2 & H1 & H). apply require_active_inv in H1 as ->; [|done].
    apply bind_Ok in H as (u2 & w2 & H1 & _). apply valid_connector_inv in H1 as [H1 _]. rewrite Ec in H1. apply is_conn_iff in H1; [|done].
    split; [by left|]. exists to, min. split; [done|by right].
  - unfold convert_cross, get_cross_connector_return in H. apply bind_Ok in H as (a & w1 & H & _).
    apply bind_Ok in H as (u & w2 & H1 & H). apply require_active_inv in H1 as ->; [|done].
    apply bind_Ok in H as (u2 & w2 & H1 & H). apply valid_connector_inv in H1 as [H1 ->]. rewrite Ec in H1. apply is_conn_iff in H1; [|done].
    apply bind_Ok in H as (u3 & w2 & H2 & _). apply valid_connector_inv in H2 as [H2 _]. rewrite Ec in H2. apply is_conn_iff in H2; [|done].
    split; [by right|]. exists to, min. split; [done|by right].
Qed.

Lemma own_call f c m w r w' : sinv w -> pinv w -> c_self c = C -> scall (c_sender c) C (c_value c) m ->
  ~ (tok (c_sender c) /\ exists from x d, m = MTokenFallback from x d) ->
  honest_handler (exec adv f) KConv c m w = Ok (r, w') -> is_readonly m = true.
Proof.
  intros HI HP Ec HA Hm H.
  assert (exists sc, w_scores w !! C = Some sc) as [sc Hsc].
  { pose proof (si_kind _ _ _ HI _ _ kC) as K. unfold kind_at in K. destruct (w_scores w !! C); [eauto|done]. }
  assert (administrative m = true -> c_sender c <> s_owner sc /\ c_sender c <> s_new_owner sc /\
            Some (c_sender c) <> s_manager sc /\ Some (c_sender c) <> s_new_manager sc) as Hadm.
  { intros Ha. destruct (guarded_admin _ _ _ _ _ c _ _ _ HI gC Hsc HA Ha) as [H1 H2]. split; [done|]. split; [done|].
    pose proof (p_mgr _ HP) as E1. pose proof (p_pmgr _ HP) as E2. unfold manager_of, pending_manager_of in E1, E2.
    rewrite (var_sc _ _ _ _ _ Hsc) in E1. rewrite (var_sc _ _ _ _ _ Hsc) in E2.
    destruct HA as (_ & _ & HA). rewrite E1, E2.
    split; intros E; (destruct HA as [HA _]; [apply Hout; unfold manager_of, pending_manager_of; rewrite <- E; auto|congruence]). }
  rewrite <- Ec in Hsc.
  destruct m; try reflexivity; try discriminate H; exfalso; try destruct (Hadm eq_refl) as (A1 & A2 & A3 & A4); clear Hadm.
  all: try (cbn in H; unfold done_, transferOwnerShip, acceptOwnerShip, transferManagement, acceptManagement, controller_forward, addConnector,
      updateConnector, disableConnectorPurchases, restoreRegistry, disableRegistryUpdate, disableConversions, setConversionFee,
      require_owner_only, require_owner_or_manager_only in H).
  all: try (mrun H; exfalso; repeat match goal with K : _ || _ = true |- _ => apply orb_true_iff in K as [K|K] end; bools; congruence).
  - (* withdraw tokens *)
    unfold conv_withdrawTokens in H. apply bind_Ok in H as (u & w1 & H & _). apply bind_Ok in H as (b & w2 & H1 & H).
    destruct (pinv_conv _ HI HP) as (HC & _). rewrite <- Ec in HC. apply is_active_inv in H1 as [_ ->]; [|done].
    apply bind_Ok in H as (sc1 & w3 & H1 & H). apply this_Ok in H1 as [H1 ->].
    apply bind_Ok in H as (u1 & w3 & H2 & H). apply require_Ok in H2 as [_ ->].
    unfold withdrawTokens, require_owner_only in H. apply bind_Ok in H as (u2 & w3 & H2 & _). mrun H2. congruence.
  - (* a transfer of a token that is no connector *)
    apply fallback_tok in H as (_ & Ht & _); try done. apply Hm. eauto.
  - (* update of the registry *)
    destruct (pinv_conv _ HI HP) as (HC & HR1 & HR2). rewrite <- Ec in HC, HR1, HR2.
    pose proof (reg_answers adv w _ HR1 HR2 "ScoreRegistry"%string) as Hans.
    assert (registry_of w (c_self c) = s_registry sc) as Er by (apply var_sc; done). rewrite Er in Hans.
    unfold updateRegistry in H. apply bind_Ok in H as (u & w1 & H & _). apply bind_Ok in H as (sc1 & w2 & H1 & H). apply this_Ok in H1 as [H1 ->].
    rewrite Hsc in H1. injection H1 as <-. apply bind_Ok in H as (u0 & w2 & H0 & H). apply require_Ok in H0 as [H0 ->].
    apply bind_Ok in H as (r0 & w2 & H1 & H). apply (answers_inv adv _ _ _ _ _ _ _ _ _ Hans) in H1 as [-> ->].
    apply bind_Ok in H as (new & w2 & H1 & H). change (ret (registered w (s_registry sc) "ScoreRegistry") w = Ok (new, w2)) in H1. apply ret_Ok in H1 as [-> ->].
    apply bind_Ok in H as (u1 & w2 & H1 & H). unfold require_valid_address in H1. apply require_Ok in H1 as [_ ->].
    apply bind_Ok in H as (sc1 & w2 & H1 & H). apply this_Ok in H1 as [H1 ->]. rewrite Hsc in H1. injection H1 as <-.
    apply bind_Ok in H as (u2 & w2 & H1 & _). apply require_Ok in H1 as [H1 ->]. bools.
    destruct (registry_updates_allowed w0 C) eqn:EA.
    + assert (registered w0 R "ScoreRegistry" = R) as E by (destruct Hset as (_ & _ & _ & [E|E]); [congruence|exact E]).
      rewrite <- Er, Ec, (p_reg _ HP), (p_addrs _ HP (gR EA)) in H1. congruence.
    + pose proof EA as E. rewrite <- (p_allow _ HP) in E. unfold registry_updates_allowed in E. rewrite <- Ec, (var_sc _ _ _ _ _ Hsc) in E.
      destruct H0 as [H0|H0]; [congruence|]. bools. congruence.
Qed.

(* ------------------------------------------------------------- one conversion ---- *)
Lemma conversions_app evs w w' : w_log w' = evs ++ w_log w ->
  conversions w' C = (length (List.filter is_conversion (own_events C evs)) + conversions w C)%nat.
Proof.
  intros E. unfold conversions, own_events. rewrite E, omap_app. rewrite List.filter_app. apply app_length.
Qed.
Lemma fee_split_le fee y k x z : fee_split fee y k = Some (x, z) -> x <= y.
Proof. unfold fee_split. destruct (Z.leb_spec (final_amount fee y k) y); [|done]. by intros [= <- _]. Qed.

(* ledger changes keep the set-up *)
Lemma pinv_eff w w' db ds dv evs : eff w w' db ds dv evs -> (forall t, dv C t = 0) -> pinv w -> pinv w'.
Proof.
  intros HE Hv HP. pose proof (eff_ledger _ _ _ _ _ _ HE) as HL. split.
  - rewrite <- (p_token _ HP). by apply ledger_token.
  - rewrite <- (p_reg _ HP). by apply ledger_registry.
  - rewrite <- (p_conns _ HP). by apply eff_var.
  - intros t. rewrite <- (p_conn _ HP), (eff_conn _ _ _ _ _ _ HE), Hv. apply add_virtual_0.
  - rewrite <- (p_fee _ HP). by apply ledger_fee.
  - rewrite <- (p_mgr _ HP). by apply eff_var.
  - rewrite <- (p_pmgr _ HP). by apply eff_var.
  - rewrite <- (p_allow _ HP). by apply eff_var.
  - intros HG n. rewrite <- (p_addrs _ HP HG). by apply ledger_registered.
Qed.
Lemma sinv_eff w w' db ds dv evs : eff w w' db ds dv evs -> sinv w -> sinv w'.
Proof.
  intros HE [A B G D]. pose proof (eff_ledger _ _ _ _ _ _ HE) as HL. split.
  - intros a k Hk. rewrite (ledger_kind _ _ _ HL). by apply A.
  - destruct HL as [_ HL]. specialize (HL zero_score). rewrite B in HL. by destruct (w_scores w' !! zero_score).
  - intros X HX. rewrite (ledger_owner _ _ _ HL). by apply G.
  - intros X HX. unfold pending_owner_of. erewrite eff_var; [by apply D|done|done].
Qed.

(* events of others and of the token are no conversions of C *)
Definition quiet_events (evs : list (addr * event)) : Prop := forall a e, In (a, e) evs -> a = C -> is_conversion e = false.
Lemma quiet_conversions evs w w' : w_log w' = evs ++ w_log w -> quiet_events evs -> conversions w' C = conversions w C.
Proof.
  intros E Hq. rewrite (conversions_app _ _ _ E). replace (List.filter is_conversion (own_events C evs)) with (@nil event); [done|].
  clear E. induction evs as [|[a e] evs IH]; [done|]. unfold own_events in *. cbn [omap list_omap]. cbn.
  assert (quiet_events evs) as Hq' by (intros b g Hin; apply Hq; by right). destruct (decide (a = C)) as [->|]; [|by apply IH].
  cbn. rewrite (Hq C e) by (by left || done). by apply IH.
Qed.

(* scores call as strangers do *)
Lemma scall_plain a to m : a <> zero_score -> is_contract a = true -> administrative m = false -> (forall b x, m = MDestroy b x -> b = a) -> scall a to 0 m.
Proof. intros A B D E. split; [done|]. split; [by intros n ->|]. done. Qed.
Lemma tok_contract t : tok t -> is_contract t = true.
Proof. intros H. pose proof (tok_token _ H) as K. destruct (kind_at w0 t) as [k|] eqn:E; [by destruct (kind_contract adv w0 t k Hreach E)|]. unfold is_token in K. rewrite E in K. by destruct K as [?|[?|?]]. Qed.
Lemma exists_nonzero a k : kind_at w0 a = Some k -> a <> zero_score.
Proof. intros H ->. unfold kind_at in H. by rewrite no_zero in H. Qed.
Lemma tok_nonzero t : tok t -> t <> zero_score.
Proof. intros H. pose proof (tok_token _ H) as K. intros ->. unfold is_token, kind_at in K. rewrite no_zero in K. by destruct K as [?|[?|?]]. Qed.
Lemma C_contract : is_contract C = true.
Proof. by destruct (kind_contract adv w0 C _ Hreach kC). Qed.
Lemma tok_not_C t : tok t -> t <> C.
Proof. intros H ->. by apply C_not_tok. Qed.

(* what holds of the calls a caller other than C makes *)
Definition calls_RR (fuel : nat) : Prop := forall ro s t v m w r w', scall s t v m -> s <> C ->
  ~ (t = C /\ tok s /\ exists from x d, m = MTokenFallback from x d) -> exec adv fuel ro s t v m w = Ok (r, w') -> RR w w'.

Lemma tok_at w t : sinv w -> tok t -> token_at w t.
Proof. intros HI Ht. split; [by apply tok_contract|]. apply sinv_is_token; [done|by apply tok_token]. Qed.

(* logging the conversion and the prices *)
Lemma same_log a e w : pool_of (wlog a e w) C = pool_of w C.
Proof. done. Qed.
Lemma sinv_log a e w : sinv w -> sinv (wlog a e w).
Proof. intros H. exact (sinv_eff _ _ _ _ _ _ (eff_log1 w a e) H). Qed.
Lemma pinv_log a e w : pinv w -> pinv (wlog a e w).
Proof. intros H. by eapply pinv_eff; [exact (eff_log1 w a e)|..]. Qed.
(* the converter pays a trader, who may call anything while he is paid *)
Lemma pay_any g ro t s x w r w' : sinv w -> pinv w -> t ∈ conns -> s <> C -> (forall k, (k < g)%nat -> calls_RR k) ->
  exec adv g ro C t 0 (MTransfer s x (Some data_result)) w = Ok (r, w') ->
  0 <= x /\ sinv w' /\ pinv w' /\ exists n, conversions w' C = (n + conversions w C)%nat /\
    exists p, supply p = supply (pool_of w C) /\ moved t (- x) (reserve_of (pool_of w C)) (reserve_of p) /\ trades conns weight n p (pool_of w' C).
Proof.
  intros HI HP Ht Hs IH H. assert (tok t) as HT by (by right). destruct (tok_at _ _ HI HT) as [HT1 HT2].
  destruct (token_sc _ _ HT2) as (sc & Hsc & Hk). destruct g as [|g]; [done|].
  assert (s_kind sc <> KAdv) as Hadv by (by intros E; rewrite E in Hk).
  destruct (proj1 (exec_honest_Ok adv g ro C t _ w sc (s_kind sc) r w' HT1 Hsc eq_refl Hadv) H) as [_ H'].
  eapply token_transfer_inv in H' as (Hx & Hf1 & Hf2 & _ & r2 & w2 & E & ->); [|done|exact Hsc]. cbn [c_self c_sender c_ro default] in E, Hx.
  match type of E with _ ?z = _ => set (w1 := z) in E end. split; [lia|].
  pose proof (eff_move w t sc C s x Hsc : eff w w1 _ _ _ _) as E1.
  pose proof (sinv_eff _ _ _ _ _ _ E1 HI) as HI1. assert (pinv w1) as HP1 by (by eapply pinv_eff; [exact E1|..]).
  pose proof (tok_not_C _ HT) as HtC.
  assert (RR w1 w2) as HR.
  { destruct (is_contract s); [|apply ret_Ok in E as [_ ->]; apply RR_refl].
    eapply (IH g ltac:(lia)); [..|exact E].
    - apply scall_plain; [by apply tok_nonzero|done|done|done].
    - done.
    - by intros (? & _). }
  destruct (HR HI1 HP1) as (HI2 & HP2 & n & Hn & HTr).
  split; [by apply sinv_log|]. split; [by apply pinv_log|]. exists n. split.
  { rewrite (quiet_conversions [(t, EvTransfer C s x data_result)] w2); [|done|by intros a e [[= <- <-]|[]]].
    exact Hn. }
  exists (pool_of w1 C). split; [|split].
  - rewrite !pool_of_pinv by done. cbn [supply]. rewrite (eff_sup _ _ _ _ _ _ E1). unfold zero1. lia.
  - rewrite !pool_of_pinv by done. cbn [reserve_of]. split.
    + rewrite !decide_True by done. rewrite (eff_bal _ _ _ _ _ _ E1). unfold credit. rewrite !(decide_True (P := t = t)) by done.
      rewrite (decide_True (P := C = C)), (decide_False (P := C = s)) by done. lia.
    + intros k Hk'. destruct (decide (k ∈ conns)); [|done]. rewrite (eff_bal _ _ _ _ _ _ E1). unfold credit. rewrite !(decide_False (P := k = t)) by done. lia.
  - exact HTr.
Qed.

Lemma price_log f c t s w u w' : sinv w -> pinv w -> c_self c = C -> tok t -> price_data_update (exec adv f) c t s w = Ok (u, w') ->
  sinv w' /\ pinv w' /\ conversions w' C = conversions w C /\ pool_of w' C = pool_of w C.
Proof.
  intros HI HP Ec Ht H. destruct (pinv_conv _ HI HP) as (HC & _). rewrite <- Ec in HC.
  apply price_inv in H as ->; [|done|by apply tok_at].
  split; [by apply sinv_log|]. split; [by apply pinv_log|]. split; [|done].
  rewrite Ec. eapply (quiet_conversions [_]); [done|]. by intros a e [[= <- <-]|[]].
Qed.
Lemma emit_conversion c w u w' t1 t2 b x y z : c_self c = C -> emit c (EvConversion t1 t2 b x y z) w = Ok (u, w') ->
  w' = wlog C (EvConversion t1 t2 b x y z) w /\ conversions w' C = S (conversions w C).
Proof.
  intros Ec H. mrun H. rewrite Ec. split; [done|].
  rewrite (conversions_app [(C, EvConversion t1 t2 b x y z)] w); [|done]. unfold own_events. cbn. by rewrite decide_True.
Qed.

Lemma virtual_off w t : pinv w -> t ∈ conns -> cn_venabled (connector_of w C t) = false.
Proof. intros HP Ht. rewrite (p_conn _ HP). by apply Hset. Qed.
Lemma reserve_balance w t : pinv w -> t ∈ conns -> reserve w C t = balance_of w t C.
Proof. intros HP Ht. unfold reserve. by rewrite virtual_off. Qed.
Lemma conn_weight w t : pinv w -> cn_weight (connector_of w C t) = weight t.
Proof. intros HP. by rewrite (p_conn _ HP). Qed.
Lemma tok_conn t : tok t -> t <> F -> t ∈ conns.
Proof. by intros [?|?]. Qed.
Lemma pool_reserve w t : pinv w -> t ∈ conns -> reserve_of (pool_of w C) t = balance_of w t C.
Proof. intros HP Ht. rewrite pool_of_pinv by done. cbn [reserve_of]. by rewrite decide_True. Qed.
Lemma pool_supply w : pinv w -> supply (pool_of w C) = supply_of w F.
Proof. intros HP. by rewrite pool_of_pinv. Qed.

(* v of T have just reached the converter: p is the pool before *)
Definition deposited (T : addr) (v : Z) (p : pool addr) (w : world) : Prop :=
  supply (pool_of w C) = supply p /\
  if decide (T ∈ conns) then moved T v (reserve_of p) (reserve_of (pool_of w C)) else forall k, reserve_of (pool_of w C) k = reserve_of p k.

Lemma buy_any f c T s v min w x w' p : sinv w -> pinv w -> c_self c = C -> tok T -> T <> F -> s <> C -> 0 < v -> deposited T v p w ->
  buy (exec adv f) c s T v min w = Ok (x, w') ->
  pinv w' /\ exists n, conversions w' C = (S n + conversions w C)%nat /\ trades conns weight (S n) p (pool_of w' C).
Proof.
  intros HI HP Ec HT HTF Hs Hv [D1 D2] H. pose proof (tok_conn _ HT HTF) as Hc. rewrite decide_True in D2 by done.
  destruct (pinv_conv _ HI HP) as (HC & _). rewrite <- Ec in HC.
  apply buy_inv in H; [|done|by apply tok_at|by rewrite Ec, (p_token _ HP)].
  rewrite Ec, (p_token _ HP) in H. destruct H as (fee & _ & _ & _ & Hq & _ & Hx & HE). rewrite virtual_off in HE by done. cbn iota in HE.
  assert (pinv w') as HP'. { eapply pinv_eff; [exact HE| |done]. intros t. unfold credit. by repeat case_decide. }
  split; [done|]. exists 0%nat. pose proof (tok_not_C F (or_introl eq_refl)) as HFC. split.
  { rewrite (conversions_app _ _ _ (eff_log _ _ _ _ _ _ HE)). unfold own_events. cbn [omap list_omap].
    rewrite !(decide_True (P := C = C)), !(decide_False (P := F = C)) by done. done. }
  unfold purchase_quote in Hq. rewrite reserve_balance, (p_token _ HP), conn_weight in Hq by done.
  destruct (calculate_purchase_return _ _ _ v) as [y|] eqn:Ey; [|done]. apply fee_split_le in Hq.
  eapply (one_more_trade _ _ 0 p p); [by constructor|].
  rewrite pool_supply in D1 by done. destruct D2 as [D2 D3]. rewrite pool_reserve in D2 by done.
  eapply (purchase _ _ T v y x); [by apply elem_of_list_In|lia| |lia| |].
  - rewrite <- D1. by replace (reserve_of p T) with (balance_of w T C - v) by lia.
  - rewrite pool_supply, <- D1, (eff_sup _ _ _ _ _ _ HE), decide_True by done. done.
  - split.
    + rewrite pool_reserve, (eff_bal _ _ _ _ _ _ HE) by done. unfold credit. rewrite (decide_False (P := T = F)) by done. lia.
    + intros k Hk. rewrite <- D3 by done. rewrite !pool_of_pinv by done. cbn [reserve_of]. destruct (decide (k ∈ conns)) as [Hk2|]; [|done].
      rewrite (eff_bal _ _ _ _ _ _ HE). unfold credit. rewrite (decide_False (P := C = s)) by done. case_decide; lia.
Qed.
Lemma sell_any f c t s v min w x w' p : sinv w -> pinv w -> c_self c = C -> t ∈ conns -> t <> F -> s <> C -> 0 < v -> deposited F v p w ->
  (forall k, (k < f)%nat -> calls_RR k) -> sell (exec adv f) c s t v min w = Ok (x, w') ->
  pinv w' /\ exists n, conversions w' C = (S n + conversions w C)%nat /\ trades conns weight (S n) p (pool_of w' C).
Proof.
  intros HI HP Ec Hc HtF Hs Hv [D1 D2] IH H. assert (tok t) as HT by (by right).
  assert (F ∉ conns) as HFc. { intros E. destruct conn_facts as (_ & _ & G & _). by destruct (G _ E). }
  rewrite decide_False in D2 by done. rewrite pool_supply in D1 by done.
  destruct (pinv_conv _ HI HP) as (HC & _). rewrite <- Ec in HC.
  unfold sell in H.
  apply bind_Ok in H as ([x0 fee] & wi & H0 & H). apply sale_inv in H0 as ((_ & _ & Hq) & ->); [|done|by apply tok_at].
  apply bind_Ok in H as (u & wi & H0 & H). apply require_Ok in H0 as [_ ->].
  apply bind_Ok in H as (s4 & w4 & H4 & H). apply token_supply_inv in H4 as [-> ->]; [|done].
  apply bind_Ok in H as (s4 & w4 & H4 & H). apply connector_balance_inv in H4 as (_ & -> & ->); [|first [done|by apply tok_at]..].
  apply bind_Ok in H as (u2 & wi & H0 & H). apply require_Ok in H0 as [_ ->].
  apply bind_Ok in H as (sc & wi & H0 & H). apply this_Ok in H0 as [Hsc ->]. rewrite Ec in Hsc.
  assert (cn_venabled (conn sc t) = false) as Hvo. { rewrite <- (connector_of_sc _ _ _ _ Hsc). by apply virtual_off. }
  rewrite Hvo in H.
  apply bind_Ok in H as (u1 & w1 & H1 & H). apply ret_Ok in H1 as [_ ->].
  apply bind_Ok in H as (sc1 & w2 & H1 & H). apply this_Ok in H1 as [Hsc1 ->]. rewrite Ec in Hsc1.
  assert (s_token sc1 = F) as EF. { rewrite <- (token_of_sc _ _ _ Hsc1). by apply HP. }
  rewrite EF in H. destruct (tok_at w F HI (or_introl eq_refl)) as [HF1 _].
  apply bind_Ok in H as (r2 & w1 & H2 & H). rewrite Ec in H2. unfold ecall in H2. rewrite Ec in H2.
  apply burn_inv in H2 as (Hx & E1); [|done|by apply (si_kind _ _ _ HI), kF].
  pose proof (sinv_eff _ _ _ _ _ _ E1 HI) as HI1. assert (pinv w1) as HP1 by (by eapply pinv_eff; [exact E1|..]).
  pose proof (tok_not_C F (or_introl eq_refl)) as HFC.
  assert (conversions w1 C = conversions w C) as N1.
  { eapply quiet_conversions; [apply (eff_log _ _ _ _ _ _ E1)|]. intros a e [[= <- <-]|[[= <- <-]|[]]]; done. }
  apply bind_Ok in H as (r3 & w2 & H3 & H). unfold ecall in H3. rewrite Ec in H3.
  apply pay_any in H3 as (Hx0 & HI2 & HP2 & n & N2 & q & Q1 & Q2 & HTr); [|done..].
  apply bind_Ok in H as (u3 & w3 & H3 & H). apply emit_conversion in H3 as [-> N3]; [|done].
  set (w3 := wlog C _ w2) in *.
  assert (sinv w3) as HI3 by (by apply sinv_log). assert (pinv w3) as HP3 by (by apply pinv_log).
  destruct (pinv_conv _ HI3 HP3) as (HC3 & _). rewrite <- Ec in HC3.
  apply bind_Ok in H as (s5 & w4 & H4 & H). apply token_supply_inv in H4 as [_ ->]; [|done].
  apply bind_Ok in H as (u5 & w5 & H5 & H). apply price_log in H5 as (HI5 & HP5 & N5 & Q5); [|done..].
  apply ret_Ok in H as [_ ->]. split; [done|]. exists n. split; [lia|].
  rewrite Q5. change (pool_of w3 C) with (pool_of w2 C).
  replace (S n) with (n + 1)%nat by lia. eapply trades_trans; [|exact HTr].
  eapply (one_more_trade _ _ 0 p p); [by constructor|].
  unfold sale_quote in Hq. rewrite Ec, reserve_balance, (p_token _ HP), conn_weight in Hq by done.
  destruct (calculate_sale_return _ _ _ v) as [y|] eqn:Ey; [|done]. apply fee_split_le in Hq.
  rewrite pool_supply, (eff_sup _ _ _ _ _ _ E1), decide_True in Q1 by done.
  assert (forall k, reserve_of (pool_of w1 C) k = reserve_of p k) as ER.
  { intros k. rewrite <- D2, !pool_of_pinv by done. cbn [reserve_of]. destruct (decide (k ∈ conns)) as [Hk|]; [|done].
    rewrite (eff_bal _ _ _ _ _ _ E1). unfold credit. rewrite decide_False; [lia|]. intros ->. done. }
  eapply (sale _ _ t v y x0); [by apply elem_of_list_In|lia| |lia|lia|].
  - rewrite <- D1, <- D2, pool_reserve by done. exact Ey.
  - destruct Q2 as [Q2 Q3]. split; [by rewrite Q2, ER|]. intros k Hk. by rewrite Q3, ER.
Qed.

Lemma cross_any f c T t s v min w x w' p : sinv w -> pinv w -> c_self c = C -> T ∈ conns -> t ∈ conns -> T <> t -> s <> C -> 0 < v -> deposited T v p w ->
  (forall k, (k < f)%nat -> calls_RR k) -> convert_cross (exec adv f) c s T t v min w = Ok (x, w') ->
  pinv w' /\ exists n, conversions w' C = (S n + conversions w C)%nat /\ trades conns weight (S n) p (pool_of w' C).
Proof.
  intros HI HP Ec HTc Hc Hne Hs Hv [D1 D2] IH H. assert (tok t) as Ht by (by right). assert (tok T) as HT by (by right).
  rewrite decide_True in D2 by done. rewrite pool_supply in D1 by done.
  destruct (pinv_conv _ HI HP) as (HC & _). rewrite <- Ec in HC.
  unfold convert_cross in H.
  apply bind_Ok in H as ([x0 fee] & wi & H0 & H). apply cross_inv in H0 as ((_ & _ & _ & _ & Hq) & ->); [|done|by apply tok_at|by apply tok_at].
  apply bind_Ok in H as (u & wi & H0 & H). apply require_Ok in H0 as [_ ->].
  apply bind_Ok in H as (sc & wi & H0 & H). apply this_Ok in H0 as [Hsc ->]. rewrite Ec in Hsc.
  assert (forall k, k ∈ conns -> cn_venabled (conn sc k) = false) as Hvo. { intros k Hk. rewrite <- (connector_of_sc _ _ _ _ Hsc). by apply virtual_off. }
  rewrite (Hvo T HTc) in H.
  apply bind_Ok in H as (u1 & w1 & H1 & H). apply ret_Ok in H1 as [_ ->].
  apply bind_Ok in H as (sc1 & w2 & H1 & H). apply this_Ok in H1 as [Hsc1 ->]. rewrite Ec in Hsc1. rewrite Hsc in Hsc1. injection Hsc1 as <-.
  rewrite (Hvo t Hc) in H.
  apply bind_Ok in H as (u1' & w1 & H1 & H). apply ret_Ok in H1 as [_ ->].
  apply bind_Ok in H as (s4 & w4 & H4 & H). apply connector_balance_inv in H4 as (_ & -> & ->); [|first [done|by apply tok_at]..].
  apply bind_Ok in H as (u2 & wi & H0 & H). apply require_Ok in H0 as [_ ->].
  apply bind_Ok in H as (r3 & w2 & H3 & H). unfold ecall in H3. rewrite Ec in H3.
  apply pay_any in H3 as (Hx0 & HI2 & HP2 & n & N2 & q & Q1 & Q2 & HTr); [|done..].
  apply bind_Ok in H as (u3 & w3 & H3 & H). apply emit_conversion in H3 as [-> N3]; [|done].
  set (w3 := wlog C _ w2) in *.
  assert (sinv w3) as HI3 by (by apply sinv_log). assert (pinv w3) as HP3 by (by apply pinv_log).
  destruct (pinv_conv _ HI3 HP3) as (HC3 & _). rewrite <- Ec in HC3.
  apply bind_Ok in H as (s5 & w4 & H4 & H). apply token_supply_inv in H4 as [_ ->]; [|done].
  apply bind_Ok in H as (u5 & w5 & H5 & H). apply price_log in H5 as (HI5 & HP5 & N5 & Q5); [|done..].
  apply bind_Ok in H as (u6 & w6 & H6 & H). apply price_log in H6 as (HI6 & HP6 & N6 & Q6); [|done..].
  apply ret_Ok in H as [_ ->]. split; [done|]. exists n. split; [lia|].
  rewrite Q6, Q5. change (pool_of w3 C) with (pool_of w2 C).
  replace (S n) with (n + 1)%nat by lia. eapply trades_trans; [|exact HTr].
  eapply (one_more_trade _ _ 0 p p); [by constructor|].
  unfold cross_quote in Hq. rewrite Ec, !reserve_balance, (conn_weight _ T), (conn_weight _ t) in Hq by done.
  destruct (calculate_cross_connector_return _ _ _ _ v) as [y|] eqn:Ey; [|done]. apply fee_split_le in Hq.
  destruct D2 as [D2 D3]. rewrite pool_reserve in D2 by done.
  eapply (cross _ _ T t v y x0 _ _ (reserve_of (pool_of w C))); [by apply elem_of_list_In|by apply elem_of_list_In|done|lia| |lia| | |].
  - rewrite <- (D3 t) by done. rewrite pool_reserve by done. replace (reserve_of p T) with (balance_of w T C - v) by lia. exact Ey.
  - by rewrite Q1, pool_supply.
  - split; [by rewrite pool_reserve|done].
  - done.
Qed.

(* the converter accepts tokens from a trader *)
Lemma trade_any f c s x d w r w' p : sinv w -> pinv w -> c_self c = C -> s <> C -> deposited (c_sender c) x p w ->
  (forall k, (k < f)%nat -> calls_RR k) -> conv_tokenFallback (exec adv f) c s x d w = Ok (r, w') ->
  pinv w' /\ exists n, conversions w' C = (S n + conversions w C)%nat /\ trades conns weight (S n) p (pool_of w' C).
Proof.
  intros HI HP Ec Hs HD IH H. destruct (pinv_conv _ HI HP) as (HC & HR1 & HR2). rewrite <- Ec in HC, HR1, HR2.
  pose proof H as H0. apply fallback_tok in H0 as (Hx & HT & to & min & Hq & Hto); [|done..].
  apply conv_fallback_inv in H as [_ H]; [|done..].
  destruct H as [(_ & _ & Hn & _)|(_ & to' & min' & y & Hq' & _ & _ & _ & Hne & H)].
  { rewrite Ec in Hn. exfalso. apply Hn. by apply pinv_active. }
  rewrite Hq in Hq'. injection Hq' as <- <-. rewrite Ec, (p_token _ HP) in H. case_decide as E1; [|case_decide as E2].
  - subst to. by eapply buy_any in H.
  - rewrite E2 in *. eapply sell_any in H; try done. by apply tok_conn.
  - eapply cross_any in H; try done; by apply tok_conn.
Qed.

(* ----------------------------------------------------------------- all calls ---- *)
Lemma RR_icx s t v w u w' : move_icx s t v w = Ok (u, w') -> RR w w'.
Proof.
  intros H. pose proof (move_icx_scores _ _ _ _ _ _ H) as E. pose proof (move_icx_log _ _ _ _ _ _ H) as EL. apply RR_same.
  - by eapply sinv_icx.
  - by rewrite E.
  - intros _ _ sc sc' H1 H2. rewrite E in H2. congruence.
  - intros _ _. apply same_trades. split.
    + unfold pool_of, supply_of, token_of. cbn. by rewrite !(var_icx _ _ _ _ _ _ _ _ _ H).
    + intros k. unfold pool_of, connectors_of. cbn. rewrite (var_icx _ _ _ _ _ _ _ _ _ H), (balance_of_icx _ _ _ _ _ _ _ _ H). done.
  - unfold conversions. by rewrite EL.
Qed.

Theorem exec_RR fuel : calls_RR fuel.
Proof.
  induction fuel as [fuel IH] using lt_wf_ind. intros ro s t v m w r w' HA Hs Hm H HI HP. destruct fuel as [|f]; [done|].
  pose proof H as H0. apply exec_inv in H as (w1 & H1 & _ & H); [|apply exec_keeps].
  destruct (RR_icx _ _ _ _ _ _ H1 HI HP) as (HI1 & HP1 & _).
  destruct H as [(n & -> & -> & ->)|(sc & Ht & Hsc & _ & Hpay & Hh & _ & H)].
  { by eapply RR_icx. }
  destruct (decide (t = C)) as [->|HtC].
  { (* the converter itself: only views succeed *)
    assert (s_kind sc = KConv) as Hk.
    { pose proof (si_kind _ _ _ HI1 _ _ kC) as E. unfold kind_at in E. rewrite Hsc in E. cbn in E. congruence. }
    rewrite Hk in *. specialize (Hh ltac:(done)). eapply own_call in Hh; [|done|done|done|exact HA|cbn; intros [? ?]; apply Hm; done].
    assert (w' = w) as ->; [|by apply RR_refl]. rewrite (move_icx_scores _ _ _ _ _ _ H1) in Hsc.
    eapply exec_view; [exact Hsc|congruence|done|exact Hh|exact H0]. }
  assert ((tok t /\ exists x d, m = MTransfer C x d) \/ ~ (tok t /\ exists x d, m = MTransfer C x d)) as [(HT & x & d & ->)|Hn].
  { destruct (transfer_dec m) as [(to & x & d & ->)|E]; [|right; intros (_ & x & d & ->); eauto].
    destruct (decide (to = C)) as [->|Hne]; [|right; intros (_ & ? & ? & [=]); done].
    unfold tok. destruct (decide (t = F)); [by left; eauto 6|]. destruct (decide (t ∈ conns)); [by left; eauto 6|]. right. by intros ([?|?] & _). }
  - (* a token sent to the converter *)
    assert (RR w1 w') as HR; [|by eapply RR_trans; [eapply RR_icx; exact H1|exact HR|..]]. intros _ _.
    pose proof (sinv_exec _ _ _ no_zero _ _ _ _ _ _ _ _ _ HI HA H0) as HI'. split; [done|].
    pose proof (sinv_is_token _ _ HI1 (tok_token _ HT)) as HT1.
    assert (token_kind (s_kind sc) = true) as Hk.
    { unfold is_token, kind_at in HT1. rewrite Hsc in HT1. cbn in HT1. by destruct HT1 as [[= ->]|[[= ->]|[= ->]]]. }
    assert (s_kind sc <> KAdv) as Hadv by (by intros E; rewrite E in Hk). specialize (Hh Hadv).
    assert (v = 0) as ->. { destruct Hpay as [E|E]; [|done]. by destruct (s_kind sc). }
    eapply token_transfer_inv in Hh as (Hx & Hf1 & Hf2 & _ & r2 & w2 & E & Ew'); [|done|exact Hsc].
    cbn [c_self c_sender c_ro frame] in E, Hx, Ew'. rewrite C_contract in E.
    match type of E with exec _ _ _ _ _ _ _ ?x = _ => set (w1' := x) in E end.
    pose proof (eff_move w1 t sc s C x Hsc : eff w1 w1' _ _ _ _) as E1.
    pose proof (sinv_eff _ _ _ _ _ _ E1 HI1) as HI2. assert (pinv w1') as HP2 by (by eapply pinv_eff; [exact E1|..]).
    assert (deposited t x (pool_of w1 C) w1') as HD.
    { split; [rewrite !pool_supply, (eff_sup _ _ _ _ _ _ E1) by done; unfold zero1; lia|]. case_decide as Hc.
      - split.
        + rewrite !pool_reserve, (eff_bal _ _ _ _ _ _ E1) by done. unfold credit. rewrite !(decide_True (P := t = t)) by done.
          rewrite (decide_True (P := C = C)), (decide_False (P := C = s)) by done. lia.
        + intros k Hk'. rewrite !pool_of_pinv by done. cbn [reserve_of]. destruct (decide (k ∈ conns)); [|done].
          rewrite (eff_bal _ _ _ _ _ _ E1). unfold credit. rewrite !(decide_False (P := k = t)) by done. lia.
      - intros k. rewrite !pool_of_pinv by done. cbn [reserve_of]. destruct (decide (k ∈ conns)) as [Hk'|]; [|done].
        rewrite (eff_bal _ _ _ _ _ _ E1). assert (k <> t) as Hkt by (by intros ->). unfold credit. rewrite !(decide_False (P := k = t)) by done. lia. }
    destruct f as [|f]; [done|].
    assert (exists scC, w_scores w1' !! C = Some scC /\ s_kind scC = KConv) as (scC & HscC & KC).
    { pose proof (si_kind _ _ _ HI2 _ _ kC) as K. unfold kind_at in K. destruct (w_scores w1' !! C) as [scC|]; [|done]. exists scC. split; [done|]. cbn in K. congruence. }
    destruct (proj1 (exec_honest_Ok adv f _ _ _ _ _ _ _ _ _ C_contract HscC KC ltac:(done)) E) as [_ E'].
    cbn -[conv_tokenFallback exec] in E'.
    eapply trade_any in E' as (HP3 & n & N3 & HTr); [..|exact HD|]; [|done|done|done|done|intros k Hk'; apply IH; lia].
    subst w'. split; [by apply pinv_log|]. exists (S n). split; [|exact HTr].
    erewrite (quiet_conversions [_] w2); [|done|by intros a e [[= <- <-]|[]]].
    rewrite N3. reflexivity.
  - (* any other call *)
    assert (RR w1 w') as HR; [|by eapply RR_trans; [eapply RR_icx; exact H1|exact HR|..]].
    refine (esteps_rel adv f (s_kind sc) (frame ro s t v m (s_kind sc)) m RR RR_refl RR_trans _ _ w1 w' sc Hsc eq_refl H).
    + cbn. intros w2 sc2 sc' evs Hs2 Hk2 Hl. by eapply (local_step w2 _ (frame ro s t v m (s_kind sc))).
    + cbn. intros ro' w2 w3 sc2 to v' m' r' Hs2 Hk2 Hc _ E HI2 HP2.
      assert (scall t to v' m') as HA2.
      { destruct Hc as [Hc|Hc].
        - eapply scall_adv; [exact HI2|done|exact Hs2|congruence].
        - eapply (scall_hcall _ _ w2 _ (frame ro s t v m (s_kind sc))); [exact HA|done|done|exact Hs2|done|exact Hc]. }
      eapply (IH f ltac:(lia)); [exact HA2|done| |exact E|exact HI2|exact HP2].
      intros (-> & HT & from & x & d & ->). pose proof (sinv_is_token _ _ HI2 (tok_token _ HT)) as HT1.
      assert (s_kind sc <> KAdv) as Hadv.
      { intros K. unfold is_token, kind_at in HT1. rewrite Hs2 in HT1. cbn in HT1. rewrite Hk2, K in HT1. by destruct HT1 as [?|[?|?]]. }
      destruct Hc as [Hc|Hc]; [done|]. inversion Hc; subst; try done. apply Hn. eauto.
Qed.

Theorem tx_RR fuel t r w' : tx_sender t = EOA n0 -> run_tx adv fuel t w0 = Ok (r, w') -> RR w0 w'.
Proof.
  intros Hs H. eapply (tx_rel adv RR RR_refl RR_trans); [..|exact H].
  - intros n to v m -> E. cbn in Hs. injection Hs as ->. eapply exec_RR; [..|exact E].
    + apply scall_sender; [apply no_eoa|apply no_zero].
    + intros E1. pose proof kC as K. rewrite <- E1 in K. unfold kind_at in K. by rewrite no_eoa in K.
    + intros (_ & HT & _). apply tok_token in HT. unfold is_token, kind_at in HT. rewrite no_eoa in HT. by destruct HT as [?|[?|?]].
  - intros n a i -> Ha Hf _ HI HP.
    assert (forall k, kind_at w0 (SCORE a) <> Some k) as Hfresh by (intros k; unfold kind_at; by rewrite Hf).
    assert (C <> SCORE a /\ R <> SCORE a /\ ~ tok (SCORE a)) as (N1 & N2 & N3).
    { split; [|split].
      - intros E. pose proof kC as K. rewrite E in K. by eapply Hfresh.
      - intros E. pose proof kR as K. rewrite E in K. by eapply Hfresh.
      - intros HT. apply tok_token in HT. unfold is_token, kind_at in HT. rewrite Hf in HT. by destruct HT as [?|[?|?]]. }
    revert HI HP. apply RR_same.
    + intros HI. by apply sinv_deploy.
    + cbn. by rewrite lookup_insert_ne.
    + cbn. intros _ _ sc sc' H1 H2. rewrite lookup_insert_ne in H2 by done. congruence.
    + intros HI HP. rewrite pool_of_upd, pool_of_pinv by done. constructor; cbn [supply reserve_of].
      * unfold supply_of. rewrite var_upd, decide_False; [done|]. intros E. apply N3. by left.
      * intros k. destruct (decide (k ∈ conns)) as [Hk|]; [|done]. rewrite balance_of_upd, decide_False; [done|]. intros E. apply N3. right. by rewrite <- E.
    + by apply conversions_upd.
  - intros n a i w1 sc cn wt sc' evs -> Hf Hs1 Hk Hl. cbn in Hs. injection Hs as ->.
    assert (C <> SCORE a /\ ~ tok (SCORE a)) as (N1 & N3).
    { split.
      - intros E. pose proof kC as K. rewrite E in K. unfold kind_at in K. by rewrite Hf in K.
      - intros HT. apply tok_token in HT. unfold is_token, kind_at in HT. rewrite Hf in HT. by destruct HT as [?|[?|?]]. }
    eapply (local_step w1 _ (Ctx (SCORE a) (EOA n0) 0 false)); cbn [c_sender c_self c_value]; try done; [|intros E1|intros [? _]; done].
    + apply scall_sender; [apply no_eoa|apply no_zero].
    + pose proof kC as K. rewrite <- E1 in K. unfold kind_at in K. by rewrite no_eoa in K.
  - intros n a i ro w1 w2 sc to m' r0 -> Hf Hs1 Hk Hm E HI HP.
    assert (C <> SCORE a /\ ~ tok (SCORE a)) as (N1 & N3).
    { split.
      - intros E1. pose proof kC as K. rewrite E1 in K. unfold kind_at in K. by rewrite Hf in K.
      - intros HT. apply tok_token in HT. unfold is_token, kind_at in HT. rewrite Hf in HT. by destruct HT as [?|[?|?]]. }
    eapply exec_RR; [|done|intros (_ & ? & _); done|exact E|done|done].
    split. { intros Ea. rewrite Ea in Hs1. by rewrite (si_zero _ _ _ HI) in Hs1. }
    split; [done|]. intros _. by destruct m'.
Qed.
Lemma pinv_start : pinv w0.
Proof. by split. Qed.
End pool.

Lemma set_up_pool w C : set_up w C -> pool_set_up w C.
Proof. by intros (A & B & _ & D). Qed.
Lemma outsider_stranger w C s : outsider w C s -> stranger w C s.
Proof. intros [A B]. split; [|done]. intros X HX. apply A. destruct HX as [?|[?|[[? _]|?]]]; auto. Qed.
Lemma outside_stranger adv C w w' : outside_history adv C w w' -> stranger_history adv C w w'.
Proof. induction 1 as [|w w1 w2 (fuel & t & H & E) _ IH]; [constructor|]. eapply rtc_l; [|exact IH]. exists fuel, t. split; [by apply outsider_stranger|done]. Qed.

Theorem stranger_tx adv w C fuel t r w' : reachable adv w -> pool_set_up w C -> stranger w C (tx_sender t) -> run_tx adv fuel t w = Ok (r, w') ->
  pool_set_up w' C /\ token_of w' C = token_of w C /\ registry_of w' C = registry_of w C /\ connectors_of w' C = connectors_of w C /\
  (forall x, connector_of w' C x = connector_of w C x) /\
  exists n, conversions w' C = (n + conversions w C)%nat /\
    trades (connectors_of w C) (fun x => cn_weight (connector_of w C x)) n (pool_of w C) (pool_of w' C).
Proof.
  intros Hr Hset Hout H. assert (exists n0, tx_sender t = EOA n0) as [n0 E] by (destruct t; by eexists). rewrite E in Hout.
  destruct (tx_RR adv w n0 C Hr Hset Hout fuel t r w' E H) as (HI & HP & n & Hn & HT).
  { apply sinv_start. by eapply no_zero. }
  { apply pinv_start. }
  split; [|by repeat split; try apply HP; exists n].
  destruct (pinv_conv adv w n0 C Hr Hset _ HI HP) as (HC & HR1 & HR2). split; [done|]. split; [by eapply pinv_active|].
  rewrite (p_reg _ _ _ _ HP), (p_conns _ _ _ _ HP), (p_allow _ _ _ _ HP). split.
  - intros x Hx. rewrite (p_conn _ _ _ _ HP). split; [|by apply Hset]. eapply (sinv_is_token _ _ _ _ HI). by apply Hset.
  - destruct (registry_updates_allowed w C) eqn:EA; [right|by left]. rewrite (p_addrs _ _ _ _ HP (gR _ _ _ Hset Hout EA)).
    destruct Hset as (_ & _ & _ & [G|G]); [congruence|exact G].
Qed.

Theorem outside_tx adv w C fuel t r w' : reachable adv w -> set_up w C -> outsider w C (tx_sender t) -> run_tx adv fuel t w = Ok (r, w') ->
  set_up w' C /\ token_of w' C = token_of w C /\ registry_of w' C = registry_of w C /\ connectors_of w' C = connectors_of w C /\
  (forall x, connector_of w' C x = connector_of w C x) /\
  exists n, conversions w' C = (n + conversions w C)%nat /\
    trades (connectors_of w C) (fun x => cn_weight (connector_of w C x)) n (pool_of w C) (pool_of w' C).
Proof.
  intros Hr Hset Hout H. pose proof (outsider_stranger _ _ _ Hout) as Hst. pose proof (set_up_pool _ _ Hset) as Hp.
  destruct (stranger_tx _ _ _ _ _ _ _ Hr Hp Hst H) as ((A & B & D) & G). split; [|done].
  assert (exists n0, tx_sender t = EOA n0) as [n0 E] by (destruct t; by eexists). rewrite E in Hout, Hst.
  destruct (tx_RR adv w n0 C Hr Hp Hst fuel t r w' E H) as (HI & HP & _).
  { apply sinv_start. by eapply no_zero. }
  { apply pinv_start. }
  split; [done|]. split; [done|]. split; [|done]. unfold network_of.
  assert (guarded w n0 (registry_of w C)) as HG. { split; [exists KReg; by split; [apply Hset|]|]. apply Hout. auto. }
  rewrite (p_reg _ _ _ _ HP), !(p_addrs _ _ _ _ HP HG). apply (si_kind _ _ _ HI). apply Hset.
Qed.

Theorem stranger_trades adv w C w' : reachable adv w -> pool_set_up w C -> stranger_history adv C w w' ->
  pool_set_up w' C /\ token_of w' C = token_of w C /\ connectors_of w' C = connectors_of w C /\
  (forall x, connector_of w' C x = connector_of w C x) /\ (conversions w C <= conversions w' C)%nat /\
  trades (connectors_of w C) (fun x => cn_weight (connector_of w C x)) (conversions w' C - conversions w C) (pool_of w C) (pool_of w' C).
Proof.
  intros Hr Hset H. induction H as [w|w w1 w' (fuel & t & Hout & ->) H IH].
  { split; [exact Hset|]. repeat (split; [done|]). rewrite Nat.sub_diag. by constructor. }
  assert (reachable adv (apply_tx adv fuel t w)) as Hr1 by (by constructor).
  unfold apply_tx in *. destruct (run_tx adv fuel t w) as [[r w1]|e] eqn:E; [|by apply IH].
  destruct (stranger_tx _ _ _ _ _ _ _ Hr Hset Hout E) as (S1 & E1 & _ & E2 & E3 & n & Hn & HT).
  destruct (IH Hr1 S1) as (S2 & F1 & F2 & F3 & F4 & HT2). split; [done|]. split; [congruence|]. split; [congruence|].
  split; [intros x; by rewrite F3|]. split; [lia|].
  replace (conversions w' C - conversions w C)%nat with ((conversions w' C - conversions w1 C) + n)%nat by lia.
  eapply trades_trans; [exact HT|]. rewrite E2 in HT2. eapply weight_ext; [|exact HT2]. intros i _. cbn. by rewrite E3.
Qed.

Theorem outside_trades adv w C w' : reachable adv w -> set_up w C -> outside_history adv C w w' ->
  set_up w' C /\ token_of w' C = token_of w C /\ connectors_of w' C = connectors_of w C /\
  (forall x, connector_of w' C x = connector_of w C x) /\ (conversions w C <= conversions w' C)%nat /\
  trades (connectors_of w C) (fun x => cn_weight (connector_of w C x)) (conversions w' C - conversions w C) (pool_of w C) (pool_of w' C).
Proof.
  intros Hr Hset H. split; [|by apply (stranger_trades adv); [| apply set_up_pool|apply outside_stranger]].
  induction H as [w|w w1 w' (fuel & t & Hout & ->) H IH]; [done|].
  assert (reachable adv (apply_tx adv fuel t w)) as Hr1 by (by constructor). apply IH; [done|].
  unfold apply_tx. destruct (run_tx adv fuel t w) as [[r w1]|e] eqn:E; [|done].
  by destruct (outside_tx _ _ _ _ _ _ _ Hr Hset Hout E) as (S1 & _).
Qed.
