(* While a converter owns its flexible token, tokens are issued only in conversions that it logs. *)
From Coq Require Import String Ascii ZArith Lia.
From stdpp Require Import base countable list numbers strings gmap relations.
From Verif Require Import Res FormulaConsts FormulaModel Codec World WorldBasics WorldSteps WorldExec WorldSpec WorldInv WorldMoney WorldAuth WorldEvents WorldMore PriceSpec IssueSpec.
Local Open Scope Z_scope.
Local Open Scope M_scope.

Section issue.
Variable adv : adversary.
Notation exec := (exec adv).
Variables C T : addr.

Definition iheld (sc : score) : Prop :=
  s_kind sc = KConv /\ (exists a, s_owner sc = EOA a) /\ (s_new_owner sc = zero_score \/ exists b, s_new_owner sc = EOA b) /\ s_token sc = T.
Definition theld (st : score) : Prop :=
  s_kind st = KFlex /\ s_owner st = C /\ (s_new_owner st = zero_score \/ exists b, s_new_owner st = EOA b).
Definition iinv (w : world) : Prop :=
  w_scores w !! zero_score = None /\ (exists sc, w_scores w !! C = Some sc /\ iheld sc) /\ is_contract C = true /\ is_contract T = true /\
  exists st, w_scores w !! T = Some st /\ theld st.
(* from w to w' the log grew by a part in which T's issuances are xs, and C's purchases ys *)
Definition logs (xs ys : list Z) (w w' : world) : Prop := iinv w' /\ exists l, w_log w' = l ++ w_log w /\ issued T l = xs /\ bought C T l = ys.
Definition foll (w w' : world) : Prop := exists xs, logs xs xs w w'.

Lemma logs_trans xs ys xs' ys' w1 w2 w3 : logs xs ys w1 w2 -> logs xs' ys' w2 w3 -> logs (xs' ++ xs) (ys' ++ ys) w1 w3.
Proof.
  intros (_ & l1 & E1 & A1 & B1) (J & l2 & E2 & A2 & B2). split; [done|]. exists (l2 ++ l1). split; [by rewrite E2, E1, app_assoc|].
  unfold issued, bought in *. rewrite !own_app, !omap_app. by subst.
Qed.
Lemma foll_refl w : iinv w -> foll w w.
Proof. intros H. exists []. split; [done|]. by exists []. Qed.
Lemma foll_trans w1 w2 w3 : foll w1 w2 -> foll w2 w3 -> foll w1 w3.
Proof. intros [xs A] [ys B]. eexists. by eapply logs_trans. Qed.
Lemma foll_inv w w' : foll w w' -> iinv w'.
Proof. by intros [? [? _]]. Qed.
Lemma iinv_ne w : iinv w -> C <> T.
Proof. intros (_ & (sc & Hsc & K & _) & _ & _ & st & Hst & P & _) ->. congruence. Qed.
Lemma iinv_C w : iinv w -> exists sc, w_scores w !! C = Some sc /\ iheld sc.
Proof. by intros (_ & H & _). Qed.

Lemma foll_same w w' : iinv w -> w_scores w' = w_scores w -> w_log w' = w_log w -> foll w w'.
Proof.
  intros J Es El. exists []. split; [unfold iinv; by rewrite Es|]. exists []. by rewrite El.
Qed.
Lemma iinv_upd w a sc sc' evs : iinv w -> w_scores w !! a = Some sc -> (a = C -> iheld sc') -> (a = T -> theld sc') -> iinv (wupd a sc' evs w).
Proof.
  intros (Z0 & (sc0 & Hsc & Hh0) & HC & HT & st & Hst & P) Ha Hh Hp. split; [|split; [|split; [done|split; [done|]]]]; cbn.
  - rewrite lookup_insert_ne; [done|]. intros ->. congruence.
  - destruct (decide (a = C)) as [->|Hne]; [exists sc'; by rewrite lookup_insert; auto|]. exists sc0. by rewrite lookup_insert_ne.
  - destruct (decide (a = T)) as [->|Hne]; [exists sc'; by rewrite lookup_insert; auto|]. exists st. by rewrite lookup_insert_ne.
Qed.
Lemma logs_upd w a sc sc' evs : iinv w -> w_scores w !! a = Some sc -> (a = C -> iheld sc') -> (a = T -> theld sc') ->
  logs (if decide (a = T) then omap says_issued evs else []) (if decide (a = C) then omap (says_bought T) evs else []) w (wupd a sc' evs w).
Proof.
  intros J Ha Hh Hp. split; [by eapply iinv_upd|]. exists (map (pair a) evs). split; [done|]. unfold issued, bought.
  split; case_decide as E; [rewrite E, own_self; done|by rewrite own_other|rewrite E, own_self; done|by rewrite own_other].
Qed.
Lemma foll_upd w a sc sc' evs : iinv w -> w_scores w !! a = Some sc -> (a = C -> iheld sc' /\ omap (says_bought T) evs = []) ->
  (a = T -> theld sc' /\ omap says_issued evs = []) -> foll w (wupd a sc' evs w).
Proof.
  intros J Ha Hh Hp. exists []. pose proof (logs_upd w a sc sc' evs J Ha (fun E => proj1 (Hh E)) (fun E => proj1 (Hp E))) as L.
  destruct (decide (a = T)) as [E|_]; [rewrite (proj2 (Hp E)) in L|]; (destruct (decide (a = C)) as [E2|_]; [rewrite (proj2 (Hh E2)) in L|]); done.
Qed.
Lemma foll_log w e : iinv w -> says_bought T e = None -> foll w (wlog C e w).
Proof.
  intros J He. exists []. split; [exact J|]. exists [(C, e)]. split; [done|]. unfold issued, bought, own_events. cbn.
  rewrite (decide_True (P := C = C)) by done. rewrite decide_False by (by eapply iinv_ne). cbn. by rewrite He.
Qed.
Lemma bought_log w e x : iinv w -> says_bought T e = Some x -> logs [] [x] w (wlog C e w).
Proof.
  intros J He. split; [exact J|]. exists [(C, e)]. split; [done|]. unfold issued, bought, own_events. cbn.
  rewrite (decide_True (P := C = C)) by done. rewrite decide_False by (by eapply iinv_ne). cbn. by rewrite He.
Qed.

(* messages that change who may issue, or issue *)
Definition outside (m : msg) : bool :=
  match m with MTransferOwnership _ | MAcceptOwnership | MTransferTokenOwnership _ => true | _ => false end.
Definition dframe (s t : addr) (m : msg) : Prop := s <> zero_score /\
  (t = C -> is_contract s = false -> outside m = false) /\
  (t = T -> is_contract s = false -> m <> MAcceptOwnership) /\
  (t = T -> s = C -> match m with MIssue _ _ | MTransferOwnership _ => False | _ => True end).

Lemma dframe_other s t m : s <> zero_score -> is_contract s = true -> s <> C -> dframe s t m.
Proof. intros A B D. split; [done|]. split; [congruence|]. split; [congruence|done]. Qed.

(* steps of C outside tokenFallback *)
Lemma quiet_step c m sc sc' evs : lstep KConv c m sc sc' evs -> iheld sc -> dframe (c_sender c) C m ->
  (forall f v d, m <> MTokenFallback f v d) -> iheld sc' /\ omap (says_bought T) evs = [].
Proof.
  intros Hl Hh (Hz & Hd & _) Hm. pose proof Hh as (K & (a & Ha) & Hn & Htok).
  inversion Hl; subst; try done; try (by exfalso; eapply Hm); try (by split; [split; [done|split; [by exists a|done]]|done]).
  - exfalso. match goal with H : c_sender c = s_owner sc |- _ => rewrite H, Ha in Hd end. by specialize (Hd eq_refl eq_refl).
  - exfalso. match goal with H : c_sender c = s_new_owner sc |- _ => rewrite H in Hd, Hz end.
    destruct Hn as [Hn|[b Hn]]; [congruence|]. rewrite Hn in Hd. by specialize (Hd eq_refl eq_refl).
Qed.
(* steps of T *)
Lemma token_step c m st st' evs : lstep KFlex c m st st' evs -> theld st -> is_contract C = true -> dframe (c_sender c) T m ->
  theld st' /\ omap says_issued evs = [].
Proof.
  intros Hl (K & Ho & Hn) HC (Hz & _ & Hd & Hi).
  inversion Hl; subst; try done; try (by split; [split; [done|split; [congruence|done]]|done]).
  - exfalso. by specialize (Hi eq_refl ltac:(congruence)).
  - exfalso. by specialize (Hi eq_refl ltac:(congruence)).
  - exfalso. match goal with H : c_sender c = s_new_owner st |- _ => rewrite H in Hd, Hz end.
    destruct Hn as [Hn|[b Hn]]; [congruence|]. rewrite Hn in Hd. by specialize (Hd eq_refl eq_refl).
Qed.

Section frames.
Variable f : nat.
Hypothesis IH : forall ro s t v m w r w', iinv w -> dframe s t m -> exec f ro s t v m w = Ok (r, w') -> foll w w'.
Notation call := (exec f).

Lemma esteps_other k c m w w' : c_self c <> C -> (c_self c = T -> k = KFlex /\ dframe (c_sender c) T m) -> is_contract (c_self c) = true ->
  iinv w -> esteps adv f k c m w w' -> foll w w'.
Proof.
  intros HC HT Hk J S. induction S as [w|w w1 w2 S1 _ IHS]; [by apply foll_refl|].
  assert (foll w w1) as F.
  { destruct S1 as [w sc sc' evs H1 H2 H3|ro w w' sc to v m' r H1 H2 _ H3].
    - eapply foll_upd; [done|exact H1|done|]. intros E. destruct (HT E) as [-> Hd]. pose proof J as (_ & _ & HCc & _ & st & Hst & Hp).
      rewrite E in H1. assert (st = sc) as -> by congruence. by eapply token_step.
    - eapply IH in H3; [exact H3|done|]. apply dframe_other; [|done|done].
      intros E. rewrite E in H1. by destruct J as [J _]; rewrite J in H1. }
  eapply foll_trans; [exact F|]. apply IHS. by eapply foll_inv.
Qed.

(* frames of C *)
Lemma C_call to v m ro w r w' : iinv w -> exec f ro C to v m w = Ok (r, w') ->
  (to = T -> match m with MIssue _ _ | MTransferOwnership _ => False | _ => True end) -> foll w w'.
Proof.
  intros J E Hm. eapply IH in E; [exact E|done|]. pose proof J as (Z0 & (sc & Hsc & _) & HC & _). split; [intros E'; congruence|].
  split; [congruence|]. split; [congruence|]. intros -> _. by apply Hm.
Qed.
Lemma issue_call ro to x w r w' : iinv w -> exec f ro C T 0 (MIssue to x) w = Ok (r, w') -> logs [x] [] w w'.
Proof.
  intros J E. destruct f as [|f']; [done|]. apply exec_inv in E as (w1 & Ei & _ & E); [|apply exec_keeps].
  unfold move_icx in Ei. cbn in Ei. injection Ei as <-.
  pose proof J as (Z0 & _ & HC & HT & st & Hst & K & Ho & Hn).
  destruct E as [(n & -> & _)|(sc & _ & Hsc & _ & _ & Hh & _)]; [done|]. assert (sc = st) as -> by congruence. rewrite K in Hh.
  specialize (Hh ltac:(done)). clear IH. cbn in Hh. unfold done_, flex_issue in Hh.
  unfold require_positive_value, require_owner_only, require_valid_address, require_not_this in Hh. mrun Hh. cbn in *. scunify.
  pose proof (iinv_ne _ J) as Hne. 
  match goal with H : w_scores w !! T = Some ?st |- context [wput T ?s2 w] =>
    pose proof (logs_upd w T st s2 [EvTransfer T to x data_none; EvIssuance x] J H ltac:(congruence) ltac:(done)) as L end.
  rewrite decide_True, decide_False in L by congruence. exact L.
Qed.

Lemma esteps_C c m w w' : c_self c = C -> dframe (c_sender c) C m -> (forall f v d, m <> MTokenFallback f v d) -> iinv w ->
  esteps adv f KConv c m w w' -> foll w w'.
Proof.
  intros Hself Hd Hm J S. induction S as [w|w w1 w2 S1 _ IHS]; [by apply foll_refl|].
  assert (foll w w1) as F.
  { pose proof J as (Z0 & (sc0 & Hsc0 & Hh) & _). pose proof (iinv_ne _ J) as Hne. destruct S1 as [w sc sc' evs H1 H2 H3|ro w w' sc to v m' r H1 H2 _ H3].
    - rewrite Hself in *. assert (sc0 = sc) as -> by congruence.
      eapply foll_upd; [done|exact H1|intros _; by eapply quiet_step|]. intros ?; congruence.
    - rewrite Hself in *. assert (sc0 = sc) as -> by congruence. destruct Hh as (K & (a & Ho) & _). destruct Hd as (_ & Hd & _).
      eapply C_call; [done|exact H3|]. intros ->. destruct H2 as [H2|H2]; [done|]. inversion H2; subst; try done; try (by destruct m'); try (by exfalso; eapply Hm).
      match goal with H : c_sender c = s_owner sc |- _ => rewrite H, Ho in Hd end. by specialize (Hd eq_refl eq_refl). }
  eapply foll_trans; [exact F|]. apply IHS. by eapply foll_inv.
Qed.

Section fallback.
Variable c : ctx.
Hypothesis Hself : c_self c = C.
Ltac nxt E w E1 := apply bind_Ok in E as (? & w & E1 & E).

Lemma this_self w sc w' : this c w = Ok (sc, w') -> w_scores w !! C = Some sc /\ w' = w.
Proof. intros E. apply this_Ok in E. by rewrite Hself in E. Qed.
Lemma ecall_foll to m w r w' : iinv w -> ecall call c to m w = Ok (r, w') ->
  match m with MIssue _ _ | MTransferOwnership _ => False | _ => True end -> foll w w'.
Proof. unfold ecall. rewrite Hself. intros J E Hm. by eapply C_call. Qed.
Lemma views_foll {A} (p : M A) w a w' : okm call KConv c MGetOwner p -> iinv w -> p w = Ok (a, w') -> foll w w'.
Proof.
  intros Hp J E. pose proof J as (_ & (sc & Hsc & _) & _). rewrite <- Hself in Hsc. pose proof (Hp sc w a w' Hsc E) as S. clear Hp E Hsc sc.
  induction S as [w|w w1 w2 S1 _ IHS]; [by apply foll_refl|].
  assert (foll w w1) as F.
  { destruct S1 as [w sc sc' evs H1 H2|w w' sc to v m' r H1 H2 H3]; [by inversion H2; try done; naive_solver|].
    rewrite Hself in H3. eapply C_call; [done|exact H3|]. intros _. inversion H2; subst; try done; try (by destruct m'). }
  eapply foll_trans; [exact F|]. apply IHS. by eapply foll_inv.
Qed.
Lemma supply_foll w z w' : iinv w -> token_supply call c w = Ok (z, w') -> foll w w'.
Proof. intros J E. eapply views_foll; [|exact J|exact E]. apply token_supply_ok, exec_keeps. Qed.
Lemma balance_foll t w z w' : iinv w -> getConnectorBalance call c t w = Ok (z, w') -> foll w w'.
Proof. intros J E. eapply views_foll; [|exact J|exact E]. apply getConnectorBalance_ok, exec_keeps. Qed.
Lemma price_foll w t s u w2 : iinv w -> price_data_update call c t s w = Ok (u, w2) -> foll w w2.
Proof.
  intros J E. unfold price_data_update in E. apply bind_Ok in E as (z & w3 & E1 & E). apply balance_foll in E1; [|done].
  nxt E w4 E4. apply this_self in E4 as [_ ->]. apply emit_Ok in E as ->. eapply foll_trans; [exact E1|].
  rewrite Hself. apply foll_log; [by eapply foll_inv|done].
Qed.
Lemma put_virtual w sc t z : iinv w -> w_scores w !! C = Some sc -> foll w (wput C (set_virtual t z sc) w).
Proof.
  intros J Hsc. destruct (iinv_C _ J) as (sc0 & Hsc0 & Hh). assert (sc0 = sc) as -> by congruence. pose proof (iinv_ne _ J).
  apply (foll_upd w C sc _ []); [done|done|done|congruence].
Qed.
Lemma raise_foll w (b : score -> bool) (g : score -> Z) t sc u w' : iinv w -> w_scores w !! C = Some sc ->
  (if b sc then modify c (set_virtual t (g sc)) else ret tt) w = Ok (u, w') -> foll w w'.
Proof.
  intros J Hsc E. destruct (b sc).
  - mstep E. rewrite Hself in *. scunify. by apply put_virtual.
  - mstep E. by apply foll_refl.
Qed.
Lemma lower_foll w (b : score -> bool) x y t sc u w' : iinv w -> w_scores w !! C = Some sc ->
  (if b sc then v <~ safe_sub x y; modify c (set_virtual t v) else ret tt) w = Ok (u, w') -> foll w w'.
Proof.
  intros J Hsc E. destruct (b sc).
  - mrun E. rewrite Hself in *. scunify. by apply put_virtual.
  - mstep E. by apply foll_refl.
Qed.
(* a Conversion into another token *)
Lemma conversion_foll w from to tr x y z u w' : iinv w -> to <> T -> emit c (EvConversion from to tr x y z) w = Ok (u, w') -> foll w w'.
Proof. intros J Hne E. mstep E. rewrite Hself. apply foll_log; [done|]. cbn. by rewrite decide_False. Qed.

(* the issuance and the Conversion that announces it follow one another *)
Lemma buy_foll tr t a mr w z w' : iinv w -> buy call c tr t a mr w = Ok (z, w') -> foll w w'.
Proof.
  intros J E. unfold buy in E. apply bind_Ok in E as ([x fee] & w1 & E1 & E).
  assert (foll w w1) as F1 by (eapply views_foll; [|exact J|exact E1]; apply get_purchase_return_ok, exec_keeps). clear E1.
  nxt E w2 E2. apply require_Ok in E2 as [_ ->]. nxt E w2 E2. apply this_self in E2 as [Hsc ->].
  nxt E w2 E2. eapply (raise_foll w1 (fun sc => cn_venabled (conn sc t)) (fun sc => cn_virtual (conn sc t) + a)) in E2; [|by eapply foll_inv|exact Hsc].
  apply bind_Ok in E as (sc3 & w3 & E3 & E). apply this_self in E3 as [Hsc3 ->].
  assert (s_token sc3 = T) as Htok. { destruct (iinv_C _ (foll_inv _ _ E2)) as (sc0 & Hsc0 & Hh). assert (sc0 = sc3) as <- by congruence. apply Hh. }
  rewrite Htok in E. nxt E w3 E3. unfold ecall in E3. rewrite Hself in E3. apply issue_call in E3; [|by eapply foll_inv].
  nxt E w4 E4. mstep E4. rewrite Hself in E.
  match type of E with context [wlog C ?e w3] => pose proof (bought_log w3 e x (proj1 E3) ltac:(cbn; by rewrite decide_True)) as E4 end.
  assert (foll w2 (wlog C (EvConversion t T tr a x fee) w3)) as F4 by (exists ([] ++ [x]); exact (logs_trans [x] [] [] [x] _ _ _ E3 E4)).
  nxt E w5 E5. apply supply_foll in E5; [|by eapply foll_inv].
  nxt E w6 E6. apply ret_Ok in E as [_ ->]. apply price_foll in E6; [|by eapply foll_inv].
  exact (foll_trans _ _ _ F1 (foll_trans _ _ _ E2 (foll_trans _ _ _ F4 (foll_trans _ _ _ E5 E6)))).
Qed.

Lemma sell_foll tr t a mr w z w' : iinv w -> t <> T -> sell call c tr t a mr w = Ok (z, w') -> foll w w'.
Proof.
  intros J Hne E. unfold sell in E. apply bind_Ok in E as ([x fee] & w1 & E1 & E).
  assert (foll w w1) as F1 by (eapply views_foll; [|exact J|exact E1]; apply get_sale_return_ok, exec_keeps). clear E1.
  nxt E w2 E2. apply require_Ok in E2 as [_ ->].
  nxt E w2 E2. apply supply_foll in E2; [|by eapply foll_inv]. nxt E w3 E3. apply balance_foll in E3; [|by eapply foll_inv].
  nxt E w4 E4. apply require_Ok in E4 as [_ ->]. nxt E w4 E4. apply this_self in E4 as [Hsc ->].
  nxt E w4 E4. eapply (lower_foll w3 (fun sc => cn_venabled (conn sc t))) in E4; [|by eapply foll_inv|exact Hsc].
  nxt E w5 E5. apply this_self in E5 as [_ ->].
  nxt E w5 E5. apply ecall_foll in E5; [|by eapply foll_inv|done].
  nxt E w6 E6. apply ecall_foll in E6; [|by eapply foll_inv|done].
  nxt E w7 E7. apply conversion_foll in E7; [|by eapply foll_inv|done]. nxt E w8 E8. apply supply_foll in E8; [|by eapply foll_inv].
  nxt E w9 E9. apply ret_Ok in E as [_ ->]. apply price_foll in E9; [|by eapply foll_inv].
  pose proof (foll_trans _ _ _ F1 (foll_trans _ _ _ E2 (foll_trans _ _ _ E3 (foll_trans _ _ _ E4 E5)))) as F5.
  exact (foll_trans _ _ _ F5 (foll_trans _ _ _ E6 (foll_trans _ _ _ E7 (foll_trans _ _ _ E8 E9)))).
Qed.

Lemma cross_foll tr from t a mr w z w' : iinv w -> t <> T -> convert_cross call c tr from t a mr w = Ok (z, w') -> foll w w'.
Proof.
  intros J Hne E. unfold convert_cross in E. apply bind_Ok in E as ([x fee] & w1 & E1 & E).
  assert (foll w w1) as F1 by (eapply views_foll; [|exact J|exact E1]; apply get_cross_ok, exec_keeps). clear E1.
  nxt E w2 E2. apply require_Ok in E2 as [_ ->]. nxt E w2 E2. apply this_self in E2 as [Hsc ->].
  nxt E w2 E2. eapply (raise_foll w1 (fun sc => cn_venabled (conn sc from)) (fun sc => cn_virtual (conn sc from) + a)) in E2; [|by eapply foll_inv|exact Hsc].
  nxt E w3 E3. apply this_self in E3 as [Hsc2 ->].
  nxt E w3 E3. eapply (lower_foll w2 (fun sc => cn_venabled (conn sc t))) in E3; [|by eapply foll_inv|exact Hsc2].
  nxt E w4 E4. apply balance_foll in E4; [|by eapply foll_inv].
  nxt E w5 E5. apply require_Ok in E5 as [_ ->]. nxt E w5 E5. apply ecall_foll in E5; [|by eapply foll_inv|done].
  nxt E w6 E6. apply conversion_foll in E6; [|by eapply foll_inv|done]. nxt E w7 E7. apply supply_foll in E7; [|by eapply foll_inv].
  nxt E w8 E8. apply price_foll in E8; [|by eapply foll_inv]. nxt E w9 E9. apply price_foll in E9; [|by eapply foll_inv].
  apply ret_Ok in E as [_ ->].
  pose proof (foll_trans _ _ _ F1 (foll_trans _ _ _ E2 (foll_trans _ _ _ E3 E4))) as F4.
  exact (foll_trans _ _ _ F4 (foll_trans _ _ _ E5 (foll_trans _ _ _ E6 (foll_trans _ _ _ E7 (foll_trans _ _ _ E8 E9))))).
Qed.

Lemma fallback_foll from v d w z w' : iinv w -> conv_tokenFallback call c from v d w = Ok (z, w') -> foll w w'.
Proof.
  intros J E. unfold conv_tokenFallback in E.
  nxt E w1 E1. unfold require_positive_value in E1. apply require_Ok in E1 as [_ ->].
  apply bind_Ok in E as (sc & w1 & E1 & E). apply this_self in E1 as [Hsc ->]. cbv zeta in E.
  apply bind_Ok in E as (acc & w1 & E1 & E).
  assert (foll w w1) as F1.
  { destruct (bool_decide _ && _).
    - apply bind_Ok in E1 as (b & w2 & E2 & E1). apply ret_Ok in E1 as [_ ->]. eapply views_foll; [|exact J|exact E2]. apply is_active_ok, exec_keeps.
    - apply ret_Ok in E1 as [_ ->]. by apply foll_refl. }
  clear E1. destruct acc; [apply ret_Ok in E as [_ ->]; done|].
  nxt E w2 E2. apply this_self in E2 as [_ ->]. nxt E w2 E2. apply ecall_foll in E2; [|by eapply foll_inv|done].
  nxt E w3 E3. apply require_Ok in E3 as [_ ->]. destruct (conv_request d) as [[t mr]|]; [|done].
  nxt E w3 E3. apply ret_Ok in E as [_ ->]. eapply foll_trans; [exact F1|]. eapply foll_trans; [exact E2|].
  assert (iinv w2) as J2 by (by eapply foll_inv). clear E2 F1 Hsc sc J.
  unfold conv_convert in E3. apply bind_Ok in E3 as (sc & w4 & E4 & E3). apply this_self in E4 as [Hsc ->].
  assert (s_token sc = T) as Htok. { destruct (iinv_C _ J2) as (sc0 & Hsc0 & Hh). assert (sc0 = sc) as <- by congruence. apply Hh. }
  nxt E3 w4 E4. apply require_Ok in E4 as [_ ->]. nxt E3 w4 E4. unfold require_positive_value in E4. apply require_Ok in E4 as [_ ->].
  nxt E3 w4 E4. apply require_Ok in E4 as [_ ->].
  case_bool_decide as H1; [eapply buy_foll; [exact J2|exact E3]|]. rewrite Htok in H1.
  case_bool_decide; [eapply sell_foll; [exact J2|exact H1|exact E3]|]. eapply cross_foll; [exact J2|exact H1|exact E3].
Qed.
End fallback.
End frames.

Theorem foll_exec fuel : forall ro s t v m w r w', iinv w -> dframe s t m -> exec fuel ro s t v m w = Ok (r, w') -> foll w w'.
Proof.
  induction fuel as [|f IH]; intros ro s t v m w r w' J Hd E; [done|].
  apply exec_inv in E as (w1 & Ei & _ & E); [|apply exec_keeps].
  assert (foll w w1) as F1. { apply foll_same; [done|by eapply move_icx_scores|by eapply move_icx_log]. }
  eapply foll_trans; [exact F1|]. assert (iinv w1) as J1 by (by eapply foll_inv). clear F1 Ei J w.
  destruct E as [(n & _ & _ & ->)|(sc & Ht & Hsc & _ & _ & Hh & _ & S)]; [by apply foll_refl|].
  destruct (decide (t = C)) as [->|Hne].
  2:{ eapply (esteps_other f IH _ (frame ro s t v m (s_kind sc)) m); [done| |done|exact J1|exact S]. cbn. intros ->. split; [|exact Hd].
      destruct J1 as (_ & _ & _ & _ & st & Hst & P). assert (st = sc) as <- by congruence. apply P. }
  destruct (iinv_C _ J1) as (sc0 & Hsc0 & Hheld). assert (sc0 = sc) as -> by congruence. pose proof (proj1 Hheld) as K. rewrite K in *.
  destruct (match m with MTokenFallback _ _ _ => true | _ => false end) eqn:Hm.
  - destruct m; try done. specialize (Hh ltac:(done)). eapply (fallback_foll f IH); [|exact J1|exact Hh]. done.
  - eapply (esteps_C f IH (frame ro s C v m KConv)); [done|exact Hd| |exact J1|exact S]. intros; by intros ->.
Qed.

(* one transaction *)
Definition same (w w' : world) : Prop := exists l, w_log w' = l ++ w_log w /\ issued T l = bought C T l.
Lemma foll_weak w w' : foll w w' -> same w w'.
Proof. intros (xs & _ & l & El & A & B). exists l. split; [done|]. congruence. Qed.
Lemma iinv_of w : reachable adv w -> in_control w C T -> iinv w.
Proof.
  intros Hr (K & KT & Ht & Ho & Hn & (a & Ha) & Hp). pose proof (no_zero_reachable adv w Hr) as Z0.
  unfold kind_at in K, KT. destruct (w_scores w !! C) as [sc|] eqn:Hsc; [|done]. destruct (w_scores w !! T) as [st|] eqn:Hst; [|done].
  unfold token_of, owner_of, pending_owner_of, var in *. rewrite Hsc in *. rewrite Hst in *. cbn in K, KT. injection K as K. injection KT as KT.
  split; [done|]. split; [exists sc; split; [done|]; split; [done|]; split; [by exists a|done]|].
  split; [by destruct (scores_at _ _ _ _ Hr Hsc) as (x & -> & _)|]. split; [by destruct (scores_at _ _ _ _ Hr Hst) as (x & -> & _)|].
  by exists st.
Qed.

Lemma same_trans w w1 w' : foll w w1 -> same w1 w' -> same w w'.
Proof.
  intros (xs & _ & l1 & E1 & A1 & B1) (l2 & E2 & H2). exists (l2 ++ l1). split; [by rewrite E2, E1, app_assoc|].
  unfold issued, bought in *. rewrite !own_app, !omap_app, H2, A1, B1. done.
Qed.
Lemma same_owner w w' a x y : w_log w' = (a, EvOwnerUpdate x y) :: w_log w -> same w w'.
Proof. intros E. exists [(a, EvOwnerUpdate x y)]. split; [done|]. unfold issued, bought, own_events. cbn. by repeat case_decide. Qed.
Lemma same_quiet w w' : w_log w' = w_log w -> same w w'.
Proof. intros E. by exists []. Qed.

(* the messages that hand over C or T *)
Lemma nominate_token f ro s v a w r w' : iinv w -> exec f ro s T v (MTransferOwnership a) w = Ok (r, w') -> same w w'.
Proof.
  intros J E. destruct f as [|f']; [done|]. apply exec_inv in E as (w1 & Ei & _ & E); [|apply exec_keeps].
  assert (foll w w1) as F1 by (apply foll_same; [done|by eapply move_icx_scores|by eapply move_icx_log]).
  eapply same_trans; [exact F1|]. pose proof (foll_inv _ _ F1) as (Z0 & _ & HC & HT & st & Hst & K & Ho & Hn).
  destruct E as [(n & E & _)|(sc & _ & Hsc & _ & _ & Hh & _)]; [by rewrite E in HT|]. assert (sc = st) as -> by congruence. rewrite K in Hh.
  specialize (Hh ltac:(done)). cbn in Hh. unfold done_, transferOwnerShip, require_owner_only in Hh. mrun Hh. by apply same_quiet.
Qed.
Lemma accept_token f ro s v w r w' : iinv w -> exec f ro s T v MAcceptOwnership w = Ok (r, w') -> same w w'.
Proof.
  intros J E. destruct f as [|f']; [done|]. apply exec_inv in E as (w1 & Ei & _ & E); [|apply exec_keeps].
  assert (foll w w1) as F1 by (apply foll_same; [done|by eapply move_icx_scores|by eapply move_icx_log]).
  eapply same_trans; [exact F1|]. pose proof (foll_inv _ _ F1) as (Z0 & _ & HC & HT & st & Hst & K & Ho & Hn).
  destruct E as [(n & E & _)|(sc & _ & Hsc & _ & _ & Hh & _)]; [by rewrite E in HT|]. assert (sc = st) as -> by congruence. rewrite K in Hh.
  specialize (Hh ltac:(done)). cbn in Hh. unfold done_, acceptOwnerShip in Hh. mrun Hh. by eapply same_owner.
Qed.
Lemma hand_over f ro s v m w r w' : iinv w -> outside m = true -> exec f ro s C v m w = Ok (r, w') -> same w w'.
Proof.
  intros J Hm E. destruct f as [|f']; [done|]. apply exec_inv in E as (w1 & Ei & _ & E); [|apply exec_keeps].
  assert (foll w w1) as F1 by (apply foll_same; [done|by eapply move_icx_scores|by eapply move_icx_log]).
  eapply same_trans; [exact F1|]. pose proof (foll_inv _ _ F1) as J1. pose proof J1 as (Z0 & (sc0 & Hsc0 & K & _ & _ & Htok) & HC & _).
  destruct E as [(n & E & _)|(sc & _ & Hsc & _ & _ & Hh & _)]; [by rewrite E in HC|]. assert (sc0 = sc) as -> by congruence. rewrite K in Hh.
  specialize (Hh ltac:(done)). destruct m; try done; cbn in Hh.
  - unfold done_, transferOwnerShip, require_owner_only in Hh. mrun Hh. by apply same_quiet.
  - unfold done_, acceptOwnerShip in Hh. mrun Hh. by eapply same_owner.
  - unfold done_, controller_forward in Hh.
    apply bind_Ok in Hh as (u & w2 & E & Hh). apply ret_Ok in Hh as [_ ->].
    unfold require_owner_only in E.
    apply bind_Ok in E as (u1 & w3 & E1 & E). mrun E1. apply bind_Ok in E as (sc2 & w3 & E2 & E). apply this_Ok in E2 as [E2 ->].
    cbn in E2. assert (sc2 = sc) as -> by congruence. apply bind_Ok in E as (r1 & w3 & E0 & E). apply ret_Ok in E as [_ ->].
    unfold ecall in E0. rewrite Htok in E0. by eapply nominate_token.
Qed.

Lemma in_control_of w : iinv w -> in_control w C T.
Proof.
  intros (_ & (sc & Hsc & K & (a & Ha) & Hn & Ht) & _ & _ & st & Hst & Kt & Ho & Hnt).
  unfold in_control, kind_at, token_of, owner_of, pending_owner_of, in_account_hands, owner_of, pending_owner_of, var. rewrite Hsc, Hst. cbn.
  split; [by f_equal|]. split; [by f_equal|]. split; [done|]. split; [done|]. split; [done|]. split; [by exists a|done].
Qed.
Lemma foll_tx fuel t w r w' : reachable adv w -> in_control w C T -> ~ hands_over C T t -> run_tx adv fuel t w = Ok (r, w') -> foll w w'.
Proof.
  intros Hr Hc Hd E. pose proof (iinv_of w Hr Hc) as J. destruct t as [n X v m|n a i].
  - eapply foll_exec; [exact J| |exact E]. split; [done|]. split; [|split].
    + intros -> _. destruct (outside m) eqn:Ho; [|done]. destruct Hd. destruct m; cbn; auto; done.
    + intros -> _ ->. apply Hd. cbn. by right.
    + intros _ E'. destruct J as (_ & _ & HC & _). by rewrite <- E' in HC.
  - apply deploy_inv in E as (Hz & Hf & _ & E). cbv zeta in E.
    destruct Hc as (K & KT & _).
    assert (SCORE a <> C) as Hne. { intros <-. unfold kind_at in K. by rewrite Hf in K. }
    assert (SCORE a <> T) as Hne2. { intros <-. unfold kind_at in KT. by rewrite Hf in KT. }
    assert (SCORE a <> zero_score) as Hnz by (intros [= ->]; done).
    set (sc := (init_score i (EOA n) (SCORE a)).1) in *. set (evs := (init_score i (EOA n) (SCORE a)).2) in *.
    assert (foll w (wupd (SCORE a) sc evs w)) as F.
    { exists []. destruct J as (Z0 & (sc0 & Hsc & Hh) & HC & HT & st & Hst & P). split.
      - split; [cbn; by rewrite lookup_insert_ne|]. split; [exists sc0; cbn; by rewrite lookup_insert_ne|]. split; [done|]. split; [done|].
        exists st. cbn. by rewrite lookup_insert_ne.
      - exists (map (pair (SCORE a)) evs). split; [done|]. unfold issued, bought. by rewrite !own_other. }
    destruct E as [-> |(t & reg & f & cn & wt & -> & _ & E)]; [exact F|]. eapply foll_trans; [exact F|].
    eapply (esteps_other fuel); [| | | |eapply foll_inv; exact F|exact E]; [|done|by intros ?|done].
    intros. by eapply foll_exec.
Qed.

Theorem same_tx fuel t w r w' : reachable adv w -> in_control w C T -> run_tx adv fuel t w = Ok (r, w') -> same w w'.
Proof.
  intros Hr Hc E. pose proof (iinv_of w Hr Hc) as J. destruct t as [n X v m|n a i]; [|eapply foll_weak, foll_tx; [exact Hr|exact Hc| |exact E]; exact (fun H => H)].
  destruct (decide (X = C /\ outside m = true)) as [[-> Ho]|Hd]; [by eapply hand_over|].
  assert ((X = T /\ m = MAcceptOwnership) \/ ~ (X = T /\ m = MAcceptOwnership)) as [[-> ->]|Hd2].
  { destruct (decide (X = T)) as [->|Hne]; [|right; by intros [? _]]. destruct m; try (right; by intros [_ ?]). by left. }
  { by eapply accept_token. }
  eapply foll_weak, foll_tx; [exact Hr|exact Hc| |exact E]. cbn. intros H. destruct m; try done; try (by apply Hd).
  destruct H as [-> | ->]; [by apply Hd|by apply Hd2].
Qed.
End issue.

Lemma net_of_events T l : net_issued T l = sum_Z (issued T l) - sum_Z (destroyed T l).
Proof.
  induction l as [|[a e] l IH]; [done|]. change ((a, e) :: l) with ([(a, e)] ++ l). rewrite net_app, IH. unfold issued, destroyed.
  rewrite own_app, !omap_app. assert (forall xs ys, sum_Z (xs ++ ys) = sum_Z xs + sum_Z ys) as Hs.
  { intros xs ys. unfold sum_Z. induction xs as [|x xs IHx]; [done|]. cbn. rewrite IHx. lia. }
  rewrite !Hs. unfold net_issued, own_events. cbn. case_decide; [|cbn; lia]. destruct e; cbn; lia.
Qed.
