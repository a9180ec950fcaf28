(* The price log of a converter: its virtual balances are what its latest PriceDataUpdate events say. *)
From Coq Require Import String Ascii ZArith Lia.
From stdpp Require Import base countable list numbers strings gmap relations.
From Verif Require Import Res FormulaConsts FormulaModel Codec World WorldBasics WorldSteps WorldExec WorldSpec WorldInv WorldEvents WorldMore PriceSpec.
Local Open Scope Z_scope.
Local Open Scope M_scope.

Section price.
Variable adv : adversary.
Notation exec := (exec adv).
Variables C T : addr.

(* C is a converter in the hands of accounts, T is one of its connectors, with a virtual balance *)
Definition held (sc : score) : Prop :=
  s_kind sc = KConv /\ (exists a, s_owner sc = EOA a) /\ (s_new_owner sc = zero_score \/ exists b, s_new_owner sc = EOA b) /\
  cn_venabled (conn sc T) = true /\ cn_set (conn sc T) = true.
Definition pinv (w : world) : Prop :=
  w_scores w !! zero_score = None /\ exists sc, w_scores w !! C = Some sc /\ held sc.
Definition virt (w : world) : Z := cn_virtual (connector_of w C T).
Definition grows (w w' : world) : Prop := pinv w' /\ exists l, w_log w' = l ++ w_log w.
Definition foll (w w' : world) : Prop := pinv w' /\ exists l, w_log w' = l ++ w_log w /\
  virt w' = default (virt w) (latest (says_price T) (own_events C l)).

Lemma foll_refl w : pinv w -> foll w w.
Proof. intros H. split; [done|]. by exists []. Qed.
Lemma foll_trans w1 w2 w3 : foll w1 w2 -> foll w2 w3 -> foll w1 w3.
Proof.
  intros (_ & l1 & E1 & H1) (J & l2 & E2 & H2). split; [done|]. exists (l2 ++ l1). split; [by rewrite E2, E1, app_assoc|].
  rewrite own_app, latest_app, H2, H1. by destruct (latest _ (own_events C l2)).
Qed.
Lemma foll_grows w w' : foll w w' -> grows w w'.
Proof. intros (J & l & E & _). split; [done|]. by exists l. Qed.
Lemma grows_trans w1 w2 w3 : grows w1 w2 -> grows w2 w3 -> grows w1 w3.
Proof. intros (_ & l1 & E1) (J & l2 & E2). split; [done|]. exists (l2 ++ l1). by rewrite E2, E1, app_assoc. Qed.
Lemma virt_sc w sc : w_scores w !! C = Some sc -> virt w = cn_virtual (conn sc T).
Proof. intros H. unfold virt, connector_of, var. by rewrite H. Qed.

Lemma foll_same w w' : pinv w -> w_scores w' = w_scores w -> w_log w' = w_log w -> foll w w'.
Proof.
  intros (Z0 & sc & Hsc & Hh) Es El. split; [split; [by rewrite Es|]; exists sc; by rewrite Es|].
  exists []. split; [by rewrite El|]. rewrite (virt_sc _ sc), (virt_sc _ sc); [done|done|by rewrite Es].
Qed.
Lemma foll_other w a sc evs : pinv w -> a <> C -> a <> zero_score -> foll w (wupd a sc evs w).
Proof.
  intros (Z0 & sc0 & Hsc & Hh) Hne Hz. split.
  - split; cbn; [by rewrite lookup_insert_ne|]. exists sc0. by rewrite lookup_insert_ne.
  - exists (map (pair a) evs). split; [done|]. rewrite own_other by done. cbn.
    rewrite (virt_sc _ sc0), (virt_sc _ sc0); [done|done|]. cbn. by rewrite lookup_insert_ne.
Qed.
Lemma foll_self w sc sc' evs : pinv w -> w_scores w !! C = Some sc -> held sc' ->
  cn_virtual (conn sc' T) = default (cn_virtual (conn sc T)) (latest (says_price T) evs) -> foll w (wupd C sc' evs w).
Proof.
  intros (Z0 & sc0 & Hsc0 & Hh) Hsc Hh' Hv. split.
  - split; cbn; [rewrite lookup_insert_ne by congruence; done|]. exists sc'. by rewrite lookup_insert.
  - exists (map (pair C) evs). split; [done|]. rewrite own_self. rewrite (virt_sc w sc Hsc), (virt_sc _ sc'); [done|]. cbn. by rewrite lookup_insert.
Qed.
Lemma foll_log w e : pinv w -> says_price T e = None -> foll w (wlog C e w).
Proof.
  intros (Z0 & sc0 & Hsc0 & Hh) He. split; [split; [done|]; by exists sc0|]. exists [(C, e)]. split; [done|].
  cbn. rewrite decide_True by done. cbn. rewrite He. by rewrite (virt_sc _ sc0), (virt_sc _ sc0).
Qed.
(* after changes whatsoever, an event that reports the present virtual balance *)
Lemma grows_settled w w1 sc s x : grows w w1 -> w_scores w1 !! C = Some sc ->
  foll w (wlog C (EvPriceDataUpdate T s (cn_virtual (conn sc T)) x) w1).
Proof.
  intros ((Z0 & sc0 & Hsc0 & Hh) & l & El) Hsc. split; [split; [done|]; by exists sc0|].
  exists ((C, EvPriceDataUpdate T s (cn_virtual (conn sc T)) x) :: l). split; [cbn; by rewrite El|].
  unfold own_events. cbn. rewrite decide_True by done. cbn. rewrite decide_True by done. cbn. by rewrite (virt_sc _ sc).
Qed.

Lemma held_conn sc t cn : held sc -> t <> T -> held (set_conn t cn sc).
Proof. intros (A & B & D & E & F) Hne. repeat split; try done; rewrite conn_set_conn, decide_False by done; done. Qed.
Lemma held_virtual sc t z : held sc -> held (set_virtual t z sc).
Proof. intros (A & B & D & E & F). unfold set_virtual. repeat split; try done; rewrite conn_set_conn; case_decide; by subst. Qed.
Lemma virtual_other sc t z : t <> T -> cn_virtual (conn (set_virtual t z sc) T) = cn_virtual (conn sc T).
Proof. intros Hne. unfold set_virtual. by rewrite conn_set_conn, decide_False. Qed.
Lemma grows_put w sc' : pinv w -> held sc' -> grows w (wput C sc' w).
Proof.
  intros (Z0 & sc0 & Hsc0 & Hh) Hh'. split; [|by exists []]. split; cbn; [rewrite lookup_insert_ne by congruence; done|].
  exists sc'. by rewrite lookup_insert.
Qed.
Lemma foll_put w sc sc' : pinv w -> w_scores w !! C = Some sc -> held sc' -> cn_virtual (conn sc' T) = cn_virtual (conn sc T) -> foll w (wput C sc' w).
Proof. intros. by eapply (foll_self w sc sc' []). Qed.

(* a message that may leave the log behind: resetting T's connector; and the two that change who owns C *)
Definition outside (m : msg) : bool :=
  match m with MUpdateConnector t _ _ _ => bool_decide (t = T) | MTransferOwnership _ | MAcceptOwnership => true | _ => false end.
Definition dframe (s t : addr) (m : msg) : Prop := s <> zero_score /\ (t = C -> is_contract s = false -> outside m = false).

(* steps of C outside tokenFallback *)
Lemma quiet_step c m sc sc' evs : lstep KConv c m sc sc' evs -> held sc -> dframe (c_sender c) C m ->
  (forall f v d, m <> MTokenFallback f v d) ->
  held sc' /\ cn_virtual (conn sc' T) = default (cn_virtual (conn sc T)) (latest (says_price T) evs).
Proof.
  intros Hl Hh (Hz & Hd) Hm. pose proof Hh as (K & (a & Ha) & Hn & Hv & Hs).
  inversion Hl; subst; try done; try (by exfalso; eapply Hm).
  - exfalso. match goal with H : c_sender c = s_owner sc |- _ => rewrite H, Ha in Hd end. by specialize (Hd eq_refl eq_refl).
  - exfalso. match goal with H : c_sender c = s_new_owner sc |- _ => rewrite H in Hd, Hz end.
    destruct Hn as [Hn|[b Hn]]; [congruence|]. rewrite Hn in Hd. by specialize (Hd eq_refl eq_refl).
  - assert (t <> T) as Hne by congruence. split; [by apply held_conn|].
    change (cn_virtual (conn (set_conn t (Connector 0 weight ve true true) sc) T) = cn_virtual (conn sc T)). by rewrite conn_set_conn, decide_False.
  - assert (t <> T) as Hne.
    { match goal with H : c_sender c = s_owner sc |- _ => rewrite H, Ha in Hd end. specialize (Hd eq_refl eq_refl). cbn in Hd.
      by apply bool_decide_eq_false in Hd. }
    split; [by apply held_conn|]. by rewrite conn_set_conn, decide_False.
  - split.
    + split; [done|]. split; [by exists a|]. split; [done|]. split; rewrite conn_set_conn; case_decide; by subst.
    + rewrite conn_set_conn. cbn. case_decide; by subst.
Qed.

(* nested calls of C *)
Section calls.
Variable f : nat.
Hypothesis Hc : forall ro to v m w r w', pinv w -> exec f ro C to v m w = Ok (r, w') -> foll w w'.
Variable c : ctx.
Hypothesis Hself : c_self c = C.
Notation call := (exec f).

Lemma ecall_foll to m w r w' : pinv w -> ecall call c to m w = Ok (r, w') -> foll w w'.
Proof. unfold ecall. rewrite Hself. apply Hc. Qed.
Lemma views_foll {A} (p : M A) w a w' : okm call KConv c MGetOwner p -> pinv w -> p w = Ok (a, w') -> foll w w'.
Proof.
  intros Hp J E. pose proof J as (_ & sc & Hsc & _). rewrite <- Hself in Hsc. pose proof (Hp sc w a w' Hsc E) as S. clear Hp E Hsc sc.
  induction S as [w|w w1 w2 S1 _ IH]; [by apply foll_refl|].
  assert (foll w w1) as F.
  { destruct S1 as [w sc sc' evs H1 H2|w w' sc to v m' r H1 H2 H3]; [by inversion H2; try done; naive_solver|].
    rewrite Hself in H3. by eapply Hc. }
  eapply foll_trans; [exact F|]. apply IH. apply F.
Qed.
Lemma pinv_sc w : pinv w -> exists sc, w_scores w !! C = Some sc /\ held sc.
Proof. by intros [_ H]. Qed.

Lemma balance_virtual w z w' : pinv w -> getConnectorBalance call c T w = Ok (z, w') ->
  w' = w /\ exists sc, w_scores w !! C = Some sc /\ z = cn_virtual (conn sc T).
Proof.
  intros (_ & sc & Hsc & _ & _ & _ & Hv & _) E. unfold getConnectorBalance in E. apply bind_Ok in E as (u & w1 & E1 & E).
  unfold require_valid_connector in E1. mrun E1. mstep E. rewrite Hself in *. scunify. rewrite Hv in E. mstep E. split; [done|]. by exists sc.
Qed.
Lemma price_settles w w1 s u w2 : grows w w1 -> price_data_update call c T s w1 = Ok (u, w2) -> foll w w2.
Proof.
  intros G E. unfold price_data_update in E. apply bind_Ok in E as (z & w3 & E1 & E).
  apply balance_virtual in E1 as (-> & sc & Hsc & ->); [|apply G]. mstep E. rewrite Hself in *. scunify. mstep E. rewrite Hself. by apply grows_settled.
Qed.
Lemma price_other w t s u w2 : pinv w -> t <> T -> price_data_update call c t s w = Ok (u, w2) -> foll w w2.
Proof.
  intros J Hne E. unfold price_data_update in E. apply bind_Ok in E as (z & w3 & E1 & E).
  assert (foll w w3) as F1 by (eapply views_foll; [|exact J|exact E1]; apply getConnectorBalance_ok, exec_keeps). clear E1. rename F1 into E1. mstep E. mstep E. rewrite Hself. eapply foll_trans; [exact E1|].
  apply foll_log; [apply E1|]. cbn. by rewrite decide_False.
Qed.
Lemma price_grows w t s u w2 : pinv w -> price_data_update call c t s w = Ok (u, w2) -> grows w w2.
Proof.
  intros J E. destruct (decide (t = T)) as [->|Hne].
  - apply foll_grows. eapply price_settles; [|exact E]. apply foll_grows. by apply foll_refl.
  - apply foll_grows. by eapply price_other.
Qed.
(* changing a virtual balance *)
Lemma put_virtual w sc t z : pinv w -> w_scores w !! C = Some sc -> grows w (wput C (set_virtual t z sc) w) /\ (t <> T -> foll w (wput C (set_virtual t z sc) w)).
Proof.
  intros J Hsc. pose proof J as (_ & sc0 & Hsc0 & Hh). assert (sc0 = sc) as -> by congruence.
  split; [by apply grows_put, held_virtual|]. intros Hne. eapply foll_put; [done|exact Hsc|by apply held_virtual|by apply virtual_other].
Qed.
Lemma raise_foll w (b : score -> bool) (g : score -> Z) t sc u w' : pinv w -> w_scores w !! C = Some sc ->
  (if b sc then modify c (set_virtual t (g sc)) else ret tt) w = Ok (u, w') -> grows w w' /\ (t <> T -> foll w w').
Proof.
  intros J Hsc E. destruct (b sc).
  - mstep E. rewrite Hself in *. scunify. by apply put_virtual.
  - mstep E. pose proof (foll_refl w J). split; [by apply foll_grows|done].
Qed.
Lemma lower_foll w (b : score -> bool) x y t sc u w' : pinv w -> w_scores w !! C = Some sc ->
  (if b sc then v <~ safe_sub x y; modify c (set_virtual t v) else ret tt) w = Ok (u, w') -> grows w w' /\ (t <> T -> foll w w').
Proof.
  intros J Hsc E. destruct (b sc).
  - mrun E. rewrite Hself in *. scunify. by apply put_virtual.
  - mstep E. pose proof (foll_refl w J). split; [by apply foll_grows|done].
Qed.
Lemma conversion_foll w from to tr x y z u w' : pinv w -> emit c (EvConversion from to tr x y z) w = Ok (u, w') -> foll w w'.
Proof. intros J E. mstep E. rewrite Hself. by apply foll_log. Qed.

Ltac nxt E w E1 := apply bind_Ok in E as (? & w & E1 & E).
Lemma ecall_foll' to m w r w' : pinv w -> ecall call c to m w = Ok (r, w') -> foll w w'.
Proof. apply ecall_foll. Qed.
Lemma supply_foll w z w' : pinv w -> token_supply call c w = Ok (z, w') -> foll w w'.
Proof. intros J E. eapply views_foll; [|exact J|exact E]. apply token_supply_ok, exec_keeps. Qed.
Lemma this_self w sc w' : this c w = Ok (sc, w') -> w_scores w !! C = Some sc /\ w' = w.
Proof. intros E. apply this_Ok in E. by rewrite Hself in E. Qed.

Lemma buy_foll tr t a mr w z w' : pinv w -> buy call c tr t a mr w = Ok (z, w') -> foll w w'.
Proof.
  intros J E. unfold buy in E. apply bind_Ok in E as ([x fee] & w1 & E1 & E).
  assert (foll w w1) as F1 by (eapply views_foll; [|exact J|exact E1]; apply get_purchase_return_ok, exec_keeps). clear E1.
  nxt E w2 E2. apply require_Ok in E2 as [_ ->]. nxt E w2 E2. apply this_self in E2 as [Hsc ->].
  nxt E w2 E2. eapply (raise_foll w1 (fun sc => cn_venabled (conn sc t)) (fun sc => cn_virtual (conn sc t) + a)) in E2 as [G2 F2]; [|apply F1|exact Hsc].
  nxt E w3 E3. apply this_self in E3 as [_ ->]. nxt E w3 E3. apply ecall_foll in E3; [|apply G2].
  nxt E w4 E4. apply conversion_foll in E4; [|apply E3]. nxt E w5 E5. apply supply_foll in E5; [|apply E4].
  nxt E w6 E6. apply ret_Ok in E as [_ ->].
  pose proof (foll_trans _ _ _ E3 (foll_trans _ _ _ E4 E5)) as F5. clear E3 E4 E5. eapply foll_trans; [exact F1|]. clear F1.
  destruct (decide (t = T)) as [->|Hne].
  - eapply price_settles; [|exact E6]. eapply grows_trans; [exact G2|by apply foll_grows].
  - eapply foll_trans; [by apply F2|]. eapply foll_trans; [exact F5|]. eapply price_other; [apply F5|exact Hne|exact E6].
Qed.

Lemma sell_foll tr t a mr w z w' : pinv w -> sell call c tr t a mr w = Ok (z, w') -> foll w w'.
Proof.
  intros J E. unfold sell in E. apply bind_Ok in E as ([x fee] & w1 & E1 & E).
  assert (foll w w1) as F1 by (eapply views_foll; [|exact J|exact E1]; apply get_sale_return_ok, exec_keeps). clear E1.
  nxt E w2 E2. apply require_Ok in E2 as [_ ->].
  nxt E w2 E2. apply supply_foll in E2; [|apply F1]. nxt E w3 E3.
  assert (foll w2 w3) as F3 by (eapply views_foll; [|apply E2|exact E3]; apply getConnectorBalance_ok, exec_keeps). clear E3.
  nxt E w4 E4. apply require_Ok in E4 as [_ ->]. nxt E w4 E4. apply this_self in E4 as [Hsc ->].
  nxt E w4 E4. eapply (lower_foll w3 (fun sc => cn_venabled (conn sc t))) in E4 as [G4 F4]; [|apply F3|exact Hsc].
  nxt E w5 E5. apply this_self in E5 as [_ ->]. nxt E w5 E5. apply ecall_foll in E5; [|apply G4].
  nxt E w6 E6. apply ecall_foll in E6; [|apply E5].
  nxt E w7 E7. apply conversion_foll in E7; [|apply E6]. nxt E w8 E8. apply supply_foll in E8; [|apply E7].
  nxt E w9 E9. apply ret_Ok in E as [_ ->].
  pose proof (foll_trans _ _ _ E5 (foll_trans _ _ _ E6 (foll_trans _ _ _ E7 E8))) as F8. clear E5 E6 E7 E8.
  eapply foll_trans; [exact F1|]. eapply foll_trans; [exact E2|]. eapply foll_trans; [exact F3|]. clear F1 E2 F3.
  destruct (decide (t = T)) as [->|Hne].
  - eapply price_settles; [|exact E9]. eapply grows_trans; [exact G4|by apply foll_grows].
  - eapply foll_trans; [by apply F4|]. eapply foll_trans; [exact F8|]. eapply price_other; [apply F8|exact Hne|exact E9].
Qed.

Lemma cross_foll tr from t a mr w z w' : pinv w -> from <> t -> convert_cross call c tr from t a mr w = Ok (z, w') -> foll w w'.
Proof.
  intros J Hft E. unfold convert_cross in E. apply bind_Ok in E as ([x fee] & w1 & E1 & E).
  assert (foll w w1) as F1 by (eapply views_foll; [|exact J|exact E1]; apply get_cross_ok, exec_keeps). clear E1.
  nxt E w2 E2. apply require_Ok in E2 as [_ ->]. nxt E w2 E2. apply this_self in E2 as [Hsc ->].
  nxt E w2 E2. eapply (raise_foll w1 (fun sc => cn_venabled (conn sc from)) (fun sc => cn_virtual (conn sc from) + a)) in E2 as [G2 F2]; [|apply F1|exact Hsc].
  nxt E w3 E3. apply this_self in E3 as [Hsc2 ->].
  nxt E w3 E3. eapply (lower_foll w2 (fun sc => cn_venabled (conn sc t))) in E3 as [G3 F3]; [|apply G2|exact Hsc2].
  nxt E w4 E4.
  assert (foll w3 w4) as F4 by (eapply views_foll; [|apply G3|exact E4]; apply getConnectorBalance_ok, exec_keeps). clear E4.
  nxt E w5 E5. apply require_Ok in E5 as [_ ->]. nxt E w5 E5. apply ecall_foll in E5; [|apply F4].
  nxt E w6 E6. apply conversion_foll in E6; [|apply E5]. nxt E w7 E7. apply supply_foll in E7; [|apply E6].
  nxt E w8 E8. nxt E w9 E9. apply ret_Ok in E as [_ ->].
  pose proof (foll_trans _ _ _ F4 (foll_trans _ _ _ E5 (foll_trans _ _ _ E6 E7))) as F7. clear F4 E5 E6 E7.
  eapply foll_trans; [exact F1|]. clear F1.
  destruct (decide (t = T)) as [->|Hne].
  - assert (grows w1 w8) as G8.
    { eapply grows_trans; [exact G2|]. eapply grows_trans; [exact G3|]. eapply grows_trans; [by apply foll_grows|]. eapply price_grows; [apply F7|exact E8]. }
    eapply price_settles; [exact G8|exact E9].
  - specialize (F3 Hne). destruct (decide (from = T)) as [->|Hne2].
    + assert (foll w1 w8) as F8.
      { eapply price_settles; [|exact E8]. eapply grows_trans; [exact G2|]. apply foll_grows. by eapply foll_trans. }
      eapply foll_trans; [exact F8|]. eapply price_other; [apply F8|exact Hne|exact E9].
    + assert (foll w7 w8) as F8 by (eapply price_other; [apply F7|exact Hne2|exact E8]).
      eapply foll_trans; [by apply F2|]. eapply foll_trans; [exact F3|]. eapply foll_trans; [exact F7|]. eapply foll_trans; [exact F8|].
      eapply price_other; [apply F8|exact Hne|exact E9].
Qed.

Lemma fallback_foll from v d w z w' : pinv w -> conv_tokenFallback call c from v d w = Ok (z, w') -> foll w w'.
Proof.
  intros J E. unfold conv_tokenFallback in E.
  nxt E w1 E1. unfold require_positive_value in E1. apply require_Ok in E1 as [_ ->].
  apply bind_Ok in E as (sc & w1 & E1 & E). apply this_self in E1 as [Hsc ->]. cbv zeta in E.
  apply bind_Ok in E as (acc & w1 & E1 & E).
  assert (foll w w1) as F1.
  { destruct (bool_decide _ && _).
    - apply bind_Ok in E1 as (b & w2 & E2 & E1). apply ret_Ok in E1 as [_ ->]. eapply views_foll; [|exact J|exact E2]. apply is_active_ok, exec_keeps.
    - apply ret_Ok in E1 as [_ ->]. by apply foll_refl. }
  clear E1. destruct acc; [apply ret_Ok in E as [_ ->]; done|].
  nxt E w2 E2. apply this_self in E2 as [Hsc2 ->]. nxt E w2 E2. apply ecall_foll in E2; [|apply F1].
  nxt E w3 E3. apply require_Ok in E3 as [_ ->]. destruct (conv_request d) as [[t mr]|]; [|done].
  nxt E w3 E3. apply ret_Ok in E as [_ ->]. eapply foll_trans; [exact F1|]. eapply foll_trans; [exact E2|].
  assert (pinv w2) as J2 by apply E2. clear E2 F1 Hsc2 Hsc J.
  unfold conv_convert in E3. nxt E3 w4 E4. apply this_self in E4 as [_ ->].
  nxt E3 w4 E4. apply require_Ok in E4 as [_ ->]. nxt E3 w4 E4. unfold require_positive_value in E4. apply require_Ok in E4 as [_ ->].
  nxt E3 w4 E4. apply require_Ok in E4 as [Hft ->]. apply bool_decide_eq_true in Hft.
  case_bool_decide; [eapply buy_foll; [exact J2|exact E3]|]. case_bool_decide; [eapply sell_foll; [exact J2|exact E3]|].
  eapply cross_foll; [exact J2|exact Hft|exact E3].
Qed.
End calls.

Lemma esteps_other f k c m w w' : 
  (forall ro s t v m w r w', pinv w -> dframe s t m -> exec f ro s t v m w = Ok (r, w') -> foll w w') ->
  c_self c <> C -> is_contract (c_self c) = true -> pinv w -> esteps adv f k c m w w' -> foll w w'.
Proof.
  intros IH Hne Hk J S. induction S as [w|w w1 w2 S1 _ IHS]; [by apply foll_refl|].
  assert (foll w w1) as F.
  { destruct S1 as [w sc sc' evs H1 H2 H3|ro w w' sc to v m' r H1 H2 _ H3].
    - apply foll_other; [done|done|]. intros E. rewrite E in H1. by destruct J as [J _]; rewrite J in H1.
    - eapply IH; [done| |exact H3]. split; [|congruence]. intros E. rewrite E in H1. by destruct J as [J _]; rewrite J in H1. }
  eapply foll_trans; [exact F|]. apply IHS. apply F.
Qed.

Theorem foll_exec fuel : forall ro s t v m w r w', pinv w -> dframe s t m -> exec fuel ro s t v m w = Ok (r, w') -> foll w w'.
Proof.
  induction fuel as [|f IH]; intros ro s t v m w r w' J Hd E; [done|].
  apply exec_inv in E as (w1 & Ei & _ & E); [|apply exec_keeps].
  assert (foll w w1) as F1.
  { apply foll_same; [done|by eapply move_icx_scores|by eapply move_icx_log]. }
  eapply foll_trans; [exact F1|]. assert (pinv w1) as J1 by apply F1. clear F1 Ei J w.
  destruct E as [(n & _ & _ & ->)|(sc & Ht & Hsc & _ & _ & Hh & _ & S)]; [by apply foll_refl|].
  destruct (decide (t = C)) as [->|Hne].
  2:{ eapply esteps_other; [exact IH| | |exact J1|exact S]; done. }
  pose proof J1 as (Z0 & sc0 & Hsc0 & Hheld). assert (sc0 = sc) as -> by congruence. pose proof (proj1 Hheld) as K. rewrite K in *.
  assert (forall ro to v m w r w', pinv w -> exec f ro C to v m w = Ok (r, w') -> foll w w') as Hc.
  { intros ro' to v' m' w r' w2 J2 E2. eapply IH; [exact J2| |exact E2]. split; [intros ->; congruence|congruence]. }
  destruct (match m with MTokenFallback _ _ _ => true | _ => false end) eqn:Hm.
  - destruct m; try done. specialize (Hh ltac:(done)). eapply (fallback_foll f Hc); [|exact J1|exact Hh]. done.
  - assert (forall a b d, m <> MTokenFallback a b d) as Hm' by (intros; by intros ->). clear Hm Hh Hsc0 Hsc Z0 Hheld K sc.
    induction S as [w|w w1 w2 S1 _ IHS]; [by apply foll_refl|].
    assert (foll w w1) as F.
    { destruct S1 as [w sc sc' evs H1 H2 H3|ro' w w' sc to v' m' r' H1 H2 _ H3]; [|by eapply Hc].
      pose proof J1 as (_ & sc0 & Hsc0 & Hheld). cbn in H1. assert (sc0 = sc) as -> by congruence.
      destruct (quiet_step _ _ _ _ _ H2 Hheld Hd Hm') as [A B]. by eapply foll_self. }
    eapply foll_trans; [exact F|]. apply IHS. apply F.
Qed.

(* one transaction; afterwards C need not be in the hands of accounts *)
Definition follw (w w' : world) : Prop := kind_at w' C = Some KConv /\ has_virtual w' C T /\ exists l, w_log w' = l ++ w_log w /\ virtual_balance w' C T = default (virtual_balance w C T) (latest (says_price T) (own_events C l)).
Lemma foll_weak w w' : foll w w' -> follw w w'.
Proof.
  intros ((_ & sc & Hsc & K & _ & _ & Hv & Hs) & H). split; [unfold kind_at; rewrite Hsc; cbn; by f_equal|].
  split; [|exact H]. unfold has_virtual, is_connector, connector_of, var. by rewrite Hsc.
Qed.
Lemma pinv_of w : w_scores w !! zero_score = None -> kind_at w C = Some KConv -> in_account_hands w C -> has_virtual w C T -> pinv w.
Proof.
  intros Z0 K ((a & Ha) & Hn) (Hs & Hv). split; [done|]. unfold kind_at in K. destruct (w_scores w !! C) as [sc|] eqn:Hsc; [|done].
  unfold owner_of, pending_owner_of, is_connector, connector_of, var in *. rewrite Hsc in *. exists sc. split; [done|].
  cbn in K. injection K as K. split; [done|]. split; [by exists a|]. done.
Qed.

Lemma tx_ownership fuel n v m w r w' : pinv w -> (exists a, m = MTransferOwnership a) \/ m = MAcceptOwnership ->
  exec fuel false (EOA n) C v m w = Ok (r, w') -> follw w w'.
Proof.
  intros J Hm E. destruct fuel as [|f]; [done|]. apply exec_inv in E as (w1 & Ei & _ & E); [|apply exec_keeps].
  assert (foll w w1) as F1 by (apply foll_same; [done|by eapply move_icx_scores|by eapply move_icx_log]).
  destruct F1 as (J1 & l1 & El1 & Hv1).
  assert (follw w1 w') as (A & B & l & El & Hv).
  { destruct E as [(k & _ & -> & _)|(sc & Ht & Hsc & _ & _ & Hh & _)]; [by destruct Hm as [(a & Ha)|Ha]|].
    pose proof J1 as (Z0 & sc0 & Hsc0 & Hheld). assert (sc0 = sc) as -> by congruence. clear Hsc0. destruct Hheld as (K & _ & _ & Hv & Hs).
    rewrite K in Hh. specialize (Hh ltac:(done)). cbn [honest_handler] in Hh.
    destruct Hm as [(a & ->)| ->]; cbn [conv_handler owned_methods] in Hh; unfold done_, transferOwnerShip, acceptOwnerShip, require_owner_only in Hh.
    - mrun Hh. cbn in *. scunify. split; [unfold kind_at; cbn; by rewrite lookup_insert; cbn; f_equal|].
      split; [unfold has_virtual, is_connector, connector_of, var; cbn; by rewrite lookup_insert|].
      exists []. split; [done|]. unfold virtual_balance, connector_of, var. cbn. by rewrite lookup_insert, Hsc.
    - mrun Hh. cbn in *. scunify. split; [unfold kind_at; cbn; by rewrite lookup_insert; cbn; f_equal|].
      split; [unfold has_virtual, is_connector, connector_of, var; cbn; by rewrite lookup_insert|].
      eexists [_]. split; [reflexivity|]. unfold virtual_balance, connector_of, var. cbn. rewrite lookup_insert, Hsc. cbn. by rewrite decide_True. }
  split; [done|]. split; [done|]. exists (l ++ l1). split; [by rewrite El, El1, app_assoc|].
  rewrite own_app, latest_app, Hv. change (virtual_balance w1 C T) with (virt w1). rewrite Hv1. by destruct (latest _ (own_events C l)).
Qed.

Theorem follw_tx fuel t w r w' : reachable adv w -> kind_at w C = Some KConv -> in_account_hands w C -> has_virtual w C T -> ~ resets C T t ->
  run_tx adv fuel t w = Ok (r, w') -> follw w w'.
Proof.
  intros Hr K Hh Hv Hn E. pose proof (no_zero_reachable adv w Hr) as Z0. pose proof (pinv_of w Z0 K Hh Hv) as J.
  destruct t as [n X v m|n a i].
  - destruct (decide (X = C /\ outside m = true)) as [[-> Ho]|Hd].
    + eapply tx_ownership; [exact J| |exact E]. destruct m; try done; [by left; eexists|by right|].
      exfalso. cbn in Ho. apply bool_decide_eq_true in Ho. by apply Hn.
    + apply foll_weak. eapply foll_exec; [exact J| |exact E]. split; [done|]. intros -> _. destruct (outside m); [|done]. by destruct Hd.
  - apply foll_weak. apply deploy_inv in E as (Ha & Hf & _ & E). cbv zeta in E.
    assert (SCORE a <> C) as Hne. { intros <-. unfold kind_at in K. by rewrite Hf in K. }
    assert (SCORE a <> zero_score) as Hnz by (intros [= ->]; done).
    pose proof (foll_other w (SCORE a) (init_score i (EOA n) (SCORE a)).1 (init_score i (EOA n) (SCORE a)).2 J Hne Hnz) as F.
    destruct E as [-> |(t & reg & f & cn & wt & -> & _ & E)]; [exact F|]. eapply foll_trans; [exact F|].
    eapply esteps_other; [| | |apply F|exact E]; [|done|done].
    intros. eapply foll_exec; eauto.
Qed.
End price.
