(* A converter pays out an IRC2 or ICX token only in conversions that it logs, unless its owner acts. *)
From Coq Require Import String Ascii ZArith Lia.
From stdpp Require Import base countable list numbers strings gmap relations.
From Verif Require Import Res FormulaConsts FormulaModel Codec World WorldBasics WorldSteps WorldExec WorldSpec WorldInv WorldMoney WorldAuth WorldEvents WorldMore PriceSpec IssueSpec PaySpec.
Local Open Scope Z_scope.
Local Open Scope M_scope.

Section pay.
Variable adv : adversary.
Notation exec := (exec adv).
Variables C T : addr.
Variable a0 : N.
Notation owner := (EOA a0).

Definition iheld (sc : score) : Prop :=
  s_kind sc = KConv /\ s_owner sc = owner /\ (s_new_owner sc = zero_score \/ exists b, s_new_owner sc = EOA b) /\ s_token sc <> T.
Definition plain (k : kind) : Prop := k = KIrc \/ k = KIcx.
Definition iinv (w : world) : Prop :=
  w_scores w !! zero_score = None /\ (exists sc, w_scores w !! C = Some sc /\ iheld sc) /\ is_contract C = true /\ is_contract T = true /\
  exists st, w_scores w !! T = Some st /\ plain (s_kind st).
(* from w to w' the log grew by a part in which C paid x, and announced y *)
Definition logs (x y : Z) (w w' : world) : Prop := iinv w' /\ exists l, w_log w' = l ++ w_log w /\ paid_out C T l = x /\ announced C T l = y.
Definition foll (w w' : world) : Prop := exists x, logs x x w w'.

Lemma sum_app (xs ys : list Z) : sum_Z (xs ++ ys) = sum_Z xs + sum_Z ys.
Proof. unfold sum_Z. induction xs as [|x xs IHx]; [done|]. cbn. rewrite IHx. lia. Qed.
Lemma paid_app l l' : paid_out C T (l ++ l') = paid_out C T l + paid_out C T l'.
Proof. unfold paid_out. by rewrite own_app, omap_app, sum_app. Qed.
Lemma announced_app l l' : announced C T (l ++ l') = announced C T l + announced C T l'.
Proof. unfold announced, bought. by rewrite own_app, omap_app, sum_app. Qed.
Lemma logs_trans x y x' y' w1 w2 w3 : logs x y w1 w2 -> logs x' y' w2 w3 -> logs (x' + x) (y' + y) w1 w3.
Proof.
  intros (_ & l1 & E1 & A1 & B1) (J & l2 & E2 & A2 & B2). split; [done|]. exists (l2 ++ l1). split; [by rewrite E2, E1, app_assoc|].
  rewrite paid_app, announced_app. by subst.
Qed.
Lemma foll_refl w : iinv w -> foll w w.
Proof. intros H. exists 0. split; [done|]. by exists []. Qed.
Lemma foll_trans w1 w2 w3 : foll w1 w2 -> foll w2 w3 -> foll w1 w3.
Proof. intros [x A] [y B]. eexists. by eapply logs_trans. Qed.
Lemma logs_foll x y w1 w2 w3 : logs x y w1 w2 -> foll w2 w3 -> exists z, logs (z + x) (z + y) w1 w3.
Proof. intros A [z B]. exists z. by eapply logs_trans. Qed.
Lemma foll_inv w w' : foll w w' -> iinv w'.
Proof. by intros [? [? _]]. Qed.
Lemma iinv_ne w : iinv w -> C <> T.
Proof. intros (_ & (sc & Hsc & K & _) & _ & _ & st & Hst & [P|P]) ->; congruence. Qed.
Lemma iinv_C w : iinv w -> exists sc, w_scores w !! C = Some sc /\ iheld sc.
Proof. by intros (_ & H & _). Qed.

Lemma foll_same w w' : iinv w -> w_scores w' = w_scores w -> w_log w' = w_log w -> foll w w'.
Proof.
  intros J Es El. exists 0. split; [unfold iinv; by rewrite Es|]. exists []. by rewrite El.
Qed.
Lemma iinv_upd w a sc sc' evs : iinv w -> w_scores w !! a = Some sc -> s_kind sc' = s_kind sc -> (a = C -> iheld sc') -> iinv (wupd a sc' evs w).
Proof.
  intros (Z0 & (sc0 & Hsc & Hh0) & HC & HT & st & Hst & P) Ha K Hh. split; [|split; [|split; [done|split; [done|]]]]; cbn.
  - rewrite lookup_insert_ne; [done|]. intros ->. congruence.
  - destruct (decide (a = C)) as [->|Hne]; [exists sc'; by rewrite lookup_insert; auto|]. exists sc0. by rewrite lookup_insert_ne.
  - destruct (decide (a = T)) as [->|Hne]; [|exists st; by rewrite lookup_insert_ne].
    exists sc'. rewrite lookup_insert. split; [done|]. rewrite K. congruence.
Qed.
Lemma foll_upd w a sc sc' evs : iinv w -> w_scores w !! a = Some sc -> s_kind sc' = s_kind sc -> (a = C -> iheld sc' /\ omap (says_bought T) evs = []) ->
  (a = T -> omap (says_paid C) evs = []) -> foll w (wupd a sc' evs w).
Proof.
  intros J Ha K Hh Hp. exists 0. split; [eapply iinv_upd; [done|exact Ha|done|]; intros E; by apply Hh|].
  exists (map (pair a) evs). split; [done|]. unfold paid_out, announced, bought. split.
  - destruct (decide (a = T)) as [E|E]; [rewrite E, own_self, Hp; done|by rewrite own_other].
  - destruct (decide (a = C)) as [E|E]; [rewrite E, own_self, (proj2 (Hh E)); done|by rewrite own_other].
Qed.
Lemma foll_log w e : iinv w -> says_bought T e = None -> foll w (wlog C e w).
Proof.
  intros J He. exists 0. split; [exact J|]. exists [(C, e)]. split; [done|]. unfold paid_out, announced, bought, own_events. cbn.
  rewrite (decide_True (P := C = C)) by done. rewrite decide_False by (by eapply iinv_ne). cbn. by rewrite He.
Qed.
Lemma announce_log w e x : iinv w -> says_bought T e = Some x -> logs 0 x w (wlog C e w).
Proof.
  intros J He. split; [exact J|]. exists [(C, e)]. split; [done|]. unfold paid_out, announced, bought, own_events. cbn.
  rewrite (decide_True (P := C = C)) by done. rewrite decide_False by (by eapply iinv_ne). cbn. rewrite He. cbn. split; lia.
Qed.
Lemma pay_log w to v d : iinv w -> logs v 0 w (wlog T (EvTransfer C to v d) w).
Proof.
  intros J. split; [exact J|]. exists [(T, EvTransfer C to v d)]. split; [done|]. pose proof (iinv_ne _ J). unfold paid_out, announced, bought, own_events. cbn.
  rewrite (decide_True (P := T = T)) by done. rewrite (decide_False (P := T = C)) by congruence. cbn. rewrite (decide_True (P := C = C)) by done. cbn. split; lia.
Qed.

(* messages: not from the owner, and not the acceptance of the ownership by an account *)
Definition dframe (s t : addr) (m : msg) : Prop := s <> zero_score /\ s <> owner /\ (t = C -> is_contract s = false -> m <> MAcceptOwnership).
Definition is_pay (m : msg) : bool := match m with MTransfer _ _ _ => true | _ => false end.
Definition R (s t : addr) (m : msg) (w w' : world) : Prop :=
  (~ (s = C /\ t = T /\ is_pay m = true) -> foll w w') /\
  (forall to v d, s = C -> t = T -> m = MTransfer to v d -> exists z, logs (z + v) z w w').
Lemma dframe_other s t m : s <> zero_score -> is_contract s = true -> dframe s t m.
Proof. intros A B. split; [done|]. split; [by intros ->|]. congruence. Qed.

(* steps of C outside tokenFallback *)
Lemma quiet_step c m sc sc' evs : lstep KConv c m sc sc' evs -> iheld sc -> dframe (c_sender c) C m ->
  (forall f v d, m <> MTokenFallback f v d) -> iheld sc' /\ omap (says_bought T) evs = [].
Proof.
  intros Hl Hh (Hz & Ho & Hd) Hm. pose proof Hh as (K & Ha & Hn & Htok).
  inversion Hl; subst; try done; try (by exfalso; eapply Hm); try congruence.
  - exfalso. match goal with H : c_sender c = s_new_owner sc |- _ => rewrite H in Hd, Hz end.
    destruct Hn as [Hn|[b Hn]]; [congruence|]. rewrite Hn in Hd. by specialize (Hd eq_refl eq_refl).
Qed.
(* steps of T *)
Lemma token_step k c m st st' evs : plain k -> lstep k c m st st' evs -> c_self c <> C -> (c_sender c = C -> is_pay m = false) ->
  omap (says_paid C) evs = [].
Proof.
  intros P Hl Hs Hp. destruct P as [-> | ->]; inversion Hl; subst; try done; cbn; rewrite decide_False; try done; intros E; by specialize (Hp E).
Qed.

Section frames.
Variable f : nat.
Hypothesis IH : forall ro s t v m w r w', iinv w -> dframe s t m -> exec f ro s t v m w = Ok (r, w') -> R s t m w w'.
Notation call := (exec f).

Lemma esteps_other k c m w w' : c_self c <> C -> (c_self c = T -> plain k /\ (c_sender c = C -> is_pay m = false)) -> is_contract (c_self c) = true ->
  iinv w -> esteps adv f k c m w w' -> foll w w'.
Proof.
  intros HC HT Hk J S. induction S as [w|w w1 w2 S1 _ IHS]; [by apply foll_refl|].
  assert (foll w w1) as F.
  { destruct S1 as [w sc sc' evs H1 H2 H3|ro w w' sc to v m' r H1 H2 _ H3].
    - eapply foll_upd; [done|exact H1|by eapply lstep_kind|done|]. intros E. destruct (HT E) as [P Hp]. by eapply token_step.
    - eapply IH in H3; [apply H3; by intros (? & _)|done|]. apply dframe_other; [|done].
      intros E. rewrite E in H1. by destruct J as [J _]; rewrite J in H1. }
  eapply foll_trans; [exact F|]. apply IHS. by eapply foll_inv.
Qed.
(* C pays *)
Lemma pay_frame c to v d w u w' : c_self c = T -> c_sender c = C -> iinv w -> irc_transfer call c to v d w = Ok (u, w') -> exists z, logs (z + v) z w w'.
Proof.
  intros Hself Hs J E. pose proof (iinv_ne _ J) as HCT. unfold irc_transfer, irc_transfer_ in E.
  apply bind_Ok in E as (? & w1 & E1 & E). apply require_Ok in E1 as [_ ->].
  apply bind_Ok in E as (sc & w1 & E1 & E). apply this_Ok in E1 as [Hsc ->].
  apply bind_Ok in E as (? & w1 & E1 & E). apply require_Ok in E1 as [_ ->].
  apply bind_Ok in E as (? & w1 & E1 & E). apply modify_Ok in E1 as (sc1 & Hsc1 & ->).
  apply bind_Ok in E as (? & w1 & E1 & E). apply modify_Ok in E1 as (sc2 & Hsc2 & ->).
  apply bind_Ok in E as (? & w1 & E1 & E). apply emit_Ok in E as ->.
  rewrite Hself, Hs in *. rewrite wput_wput in E1. rewrite lookup_wput in Hsc2. injection Hsc2 as <-.
  match type of E1 with _ (wput T ?s w) = _ => set (st := s) in * end.
  assert (foll w (wput T st w)) as F. { apply (foll_upd w T sc1 st []); [done|done|done|congruence|done]. }
  assert (foll (wput T st w) w1) as F1.
  { destruct (is_contract to).
    - unfold ecall in E1. rewrite Hself in E1. eapply IH in E1; [apply E1; intros (? & _); congruence|by eapply foll_inv|].
      pose proof J as (Z0 & _ & _ & HT & st0 & Hst & _). apply dframe_other; [congruence|done].
    - apply ret_Ok in E1 as [_ ->]. apply foll_refl. by eapply foll_inv. }
  destruct (foll_trans _ _ _ F F1) as [z L]. exists z. replace (z + v) with (v + z) by lia. rewrite <- (Z.add_0_l z) at 2.
  eapply logs_trans; [exact L|]. apply pay_log. apply L.
Qed.

(* frames of C *)
Lemma C_call to v m ro w r w' : iinv w -> exec f ro C to v m w = Ok (r, w') -> (to = T -> is_pay m = false) -> foll w w'.
Proof.
  intros J E Hm. eapply IH in E; [apply E; intros (_ & -> & Hp); rewrite Hm in Hp; done|done|].
  pose proof J as (Z0 & (sc & Hsc & _) & HC & _). apply dframe_other; [congruence|done].
Qed.
Lemma C_pay ro to v d w r w' : iinv w -> exec f ro C T 0 (MTransfer to v d) w = Ok (r, w') -> exists z, logs (z + v) z w w'.
Proof.
  intros J E. eapply IH in E; [by eapply E|done|]. pose proof J as (Z0 & (sc & Hsc & _) & HC & _). apply dframe_other; [congruence|done].
Qed.

Lemma esteps_C c m w w' : c_self c = C -> dframe (c_sender c) C m -> (forall f v d, m <> MTokenFallback f v d) -> iinv w ->
  esteps adv f KConv c m w w' -> foll w w'.
Proof.
  intros Hself Hd Hm J S. induction S as [w|w w1 w2 S1 _ IHS]; [by apply foll_refl|].
  assert (foll w w1) as F.
  { pose proof J as (Z0 & (sc0 & Hsc0 & Hh) & _). pose proof (iinv_ne _ J) as Hne. destruct S1 as [w sc sc' evs H1 H2 H3|ro w w' sc to v m' r H1 H2 _ H3].
    - rewrite Hself in *. assert (sc0 = sc) as -> by congruence.
      eapply foll_upd; [done|exact H1|by eapply lstep_kind|intros _; by eapply quiet_step|]. intros ?; congruence.
    - rewrite Hself in *. assert (sc0 = sc) as -> by congruence. destruct Hh as (K & Ho & _). destruct Hd as (_ & Hd & _).
      eapply C_call; [done|exact H3|]. intros ->. destruct H2 as [H2|H2]; [done|]. inversion H2; subst; try done; try (by destruct m'); try (by exfalso; eapply Hm); congruence. }
  eapply foll_trans; [exact F|]. apply IHS. by eapply foll_inv.
Qed.

Section fallback.
Variable c : ctx.
Hypothesis Hself : c_self c = C.
Ltac nxt E w E1 := apply bind_Ok in E as (? & w & E1 & E).

Lemma this_self w sc w' : this c w = Ok (sc, w') -> w_scores w !! C = Some sc /\ w' = w.
Proof. intros E. apply this_Ok in E. by rewrite Hself in E. Qed.
Lemma ecall_foll to m w r w' : iinv w -> ecall call c to m w = Ok (r, w') ->
  (to = T -> is_pay m = false) -> foll w w'.
Proof. unfold ecall. rewrite Hself. intros J E Hm. by eapply C_call. Qed.
Lemma views_foll {A} (p : M A) w a w' : okm call KConv c MGetOwner p -> iinv w -> p w = Ok (a, w') -> foll w w'.
Proof.
  intros Hp J E. pose proof J as (_ & (sc & Hsc & _) & _). rewrite <- Hself in Hsc. pose proof (Hp sc w a w' Hsc E) as S. clear Hp E Hsc sc.
  induction S as [w|w w1 w2 S1 _ IHS]; [by apply foll_refl|].
  assert (foll w w1) as F.
  { destruct S1 as [w sc sc' evs H1 H2|w w' sc to v m' r H1 H2 H3]; [by inversion H2; try done; naive_solver|].
    rewrite Hself in H3. eapply C_call; [done|exact H3|]. intros _. inversion H2; subst; try done; try (by destruct m'). }
  eapply foll_trans; [exact F|]. apply IHS. by eapply foll_inv.
Qed.
Lemma supply_foll w z w' : iinv w -> token_supply call c w = Ok (z, w') -> foll w w'.
Proof. intros J E. eapply views_foll; [|exact J|exact E]. apply token_supply_ok, exec_keeps. Qed.
Lemma balance_foll t w z w' : iinv w -> getConnectorBalance call c t w = Ok (z, w') -> foll w w'.
Proof. intros J E. eapply views_foll; [|exact J|exact E]. apply getConnectorBalance_ok, exec_keeps. Qed.
Lemma price_foll w t s u w2 : iinv w -> price_data_update call c t s w = Ok (u, w2) -> foll w w2.
Proof.
  intros J E. unfold price_data_update in E. apply bind_Ok in E as (z & w3 & E1 & E). apply balance_foll in E1; [|done].
  nxt E w4 E4. apply this_self in E4 as [_ ->]. apply emit_Ok in E as ->. eapply foll_trans; [exact E1|].
  rewrite Hself. apply foll_log; [by eapply foll_inv|done].
Qed.
Lemma put_virtual w sc t z : iinv w -> w_scores w !! C = Some sc -> foll w (wput C (set_virtual t z sc) w).
Proof.
  intros J Hsc. destruct (iinv_C _ J) as (sc0 & Hsc0 & Hh). assert (sc0 = sc) as -> by congruence. pose proof (iinv_ne _ J).
  apply (foll_upd w C sc _ []); [done|done|done|done|congruence].
Qed.
Lemma raise_foll w (b : score -> bool) (g : score -> Z) t sc u w' : iinv w -> w_scores w !! C = Some sc ->
  (if b sc then modify c (set_virtual t (g sc)) else ret tt) w = Ok (u, w') -> foll w w'.
Proof.
  intros J Hsc E. destruct (b sc).
  - mstep E. rewrite Hself in *. scunify. by apply put_virtual.
  - mstep E. by apply foll_refl.
Qed.
Lemma lower_foll w (b : score -> bool) x y t sc u w' : iinv w -> w_scores w !! C = Some sc ->
  (if b sc then v <~ safe_sub x y; modify c (set_virtual t v) else ret tt) w = Ok (u, w') -> foll w w'.
Proof.
  intros J Hsc E. destruct (b sc).
  - mrun E. rewrite Hself in *. scunify. by apply put_virtual.
  - mstep E. by apply foll_refl.
Qed.
(* a Conversion into another token *)
Lemma conversion_foll w from to tr x y z u w' : iinv w -> to <> T -> emit c (EvConversion from to tr x y z) w = Ok (u, w') -> foll w w'.
Proof. intros J Hne E. mstep E. rewrite Hself. apply foll_log; [done|]. cbn. by rewrite decide_False. Qed.

(* the issuance and the Conversion that announces it follow one another *)
Lemma buy_foll tr t a mr w z w' : iinv w -> buy call c tr t a mr w = Ok (z, w') -> foll w w'.
Proof.
  intros J E. unfold buy in E. apply bind_Ok in E as ([x fee] & w1 & E1 & E).
  assert (foll w w1) as F1 by (eapply views_foll; [|exact J|exact E1]; apply get_purchase_return_ok, exec_keeps). clear E1.
  nxt E w2 E2. apply require_Ok in E2 as [_ ->]. nxt E w2 E2. apply this_self in E2 as [Hsc ->].
  nxt E w2 E2. eapply (raise_foll w1 (fun sc => cn_venabled (conn sc t)) (fun sc => cn_virtual (conn sc t) + a)) in E2; [|by eapply foll_inv|exact Hsc].
  apply bind_Ok in E as (sc3 & w3 & E3 & E). apply this_self in E3 as [Hsc3 ->].
  assert (s_token sc3 <> T) as Htok. { destruct (iinv_C _ (foll_inv _ _ E2)) as (sc0 & Hsc0 & Hh). assert (sc0 = sc3) as <- by congruence. apply Hh. }
  nxt E w3 E3. apply ecall_foll in E3; [|by eapply foll_inv|done].
  nxt E w4 E4. apply conversion_foll in E4; [|by eapply foll_inv|done].
  nxt E w5 E5. apply supply_foll in E5; [|by eapply foll_inv].
  nxt E w6 E6. apply ret_Ok in E as [_ ->]. apply price_foll in E6; [|by eapply foll_inv].
  exact (foll_trans _ _ _ F1 (foll_trans _ _ _ E2 (foll_trans _ _ _ E3 (foll_trans _ _ _ E4 (foll_trans _ _ _ E5 E6))))).
Qed.

(* a payment, and the Conversion that announces it *)
Lemma pay_announce w1 w2 w3 from t tr x d ra y z r u : iinv w1 -> ecall call c t (MTransfer tr x d) w1 = Ok (r, w2) ->
  emit c (EvConversion from t ra y x z) w2 = Ok (u, w3) -> foll w1 w3.
Proof.
  intros J E1 E2. destruct (decide (t = T)) as [->|Hne].
  - unfold ecall in E1. rewrite Hself in E1. destruct (C_pay _ _ _ _ _ _ _ J E1) as [q L]. mstep E2. rewrite Hself. exists (q + x).
    pose proof (announce_log w2 (EvConversion from T ra y x z) x (proj1 L) ltac:(cbn; by rewrite decide_True)) as L2.
    pose proof (logs_trans _ _ _ _ _ _ _ L L2) as L3. replace (0 + (q + x)) with (q + x) in L3 by lia. replace (x + q) with (q + x) in L3 by lia. exact L3.
  - apply ecall_foll in E1; [|done|done]. apply conversion_foll in E2; [|by eapply foll_inv|done]. by eapply foll_trans.
Qed.

Lemma sell_foll tr t a mr w z w' : iinv w -> sell call c tr t a mr w = Ok (z, w') -> foll w w'.
Proof.
  intros J E. unfold sell in E. apply bind_Ok in E as ([x fee] & w1 & E1 & E).
  assert (foll w w1) as F1 by (eapply views_foll; [|exact J|exact E1]; apply get_sale_return_ok, exec_keeps). clear E1.
  nxt E w2 E2. apply require_Ok in E2 as [_ ->].
  nxt E w2 E2. apply supply_foll in E2; [|by eapply foll_inv]. nxt E w3 E3. apply balance_foll in E3; [|by eapply foll_inv].
  nxt E w4 E4. apply require_Ok in E4 as [_ ->]. nxt E w4 E4. apply this_self in E4 as [Hsc ->].
  nxt E w4 E4. eapply (lower_foll w3 (fun sc => cn_venabled (conn sc t))) in E4; [|by eapply foll_inv|exact Hsc].
  nxt E w5 E5. apply this_self in E5 as [_ ->].
  nxt E w5 E5. apply ecall_foll in E5; [|by eapply foll_inv|done].
  nxt E w6 E6. nxt E w7 E7. pose proof (pay_announce _ _ _ _ _ _ _ _ _ _ _ _ _ (foll_inv _ _ E5) E6 E7) as E67. clear E6 E7.
  nxt E w8 E8. apply supply_foll in E8; [|by eapply foll_inv].
  nxt E w9 E9. apply ret_Ok in E as [_ ->]. apply price_foll in E9; [|by eapply foll_inv].
  pose proof (foll_trans _ _ _ F1 (foll_trans _ _ _ E2 (foll_trans _ _ _ E3 (foll_trans _ _ _ E4 E5)))) as F5.
  exact (foll_trans _ _ _ F5 (foll_trans _ _ _ E67 (foll_trans _ _ _ E8 E9))).
Qed.

Lemma cross_foll tr from t a mr w z w' : iinv w -> convert_cross call c tr from t a mr w = Ok (z, w') -> foll w w'.
Proof.
  intros J E. unfold convert_cross in E. apply bind_Ok in E as ([x fee] & w1 & E1 & E).
  assert (foll w w1) as F1 by (eapply views_foll; [|exact J|exact E1]; apply get_cross_ok, exec_keeps). clear E1.
  nxt E w2 E2. apply require_Ok in E2 as [_ ->]. nxt E w2 E2. apply this_self in E2 as [Hsc ->].
  nxt E w2 E2. eapply (raise_foll w1 (fun sc => cn_venabled (conn sc from)) (fun sc => cn_virtual (conn sc from) + a)) in E2; [|by eapply foll_inv|exact Hsc].
  nxt E w3 E3. apply this_self in E3 as [Hsc2 ->].
  nxt E w3 E3. eapply (lower_foll w2 (fun sc => cn_venabled (conn sc t))) in E3; [|by eapply foll_inv|exact Hsc2].
  nxt E w4 E4. apply balance_foll in E4; [|by eapply foll_inv].
  nxt E w5 E5. apply require_Ok in E5 as [_ ->]. nxt E w5 E5. nxt E w6 E6.
  pose proof (pay_announce _ _ _ _ _ _ _ _ _ _ _ _ _ (foll_inv _ _ E4) E5 E6) as E56. clear E5 E6. nxt E w7 E7. apply supply_foll in E7; [|by eapply foll_inv].
  nxt E w8 E8. apply price_foll in E8; [|by eapply foll_inv]. nxt E w9 E9. apply price_foll in E9; [|by eapply foll_inv].
  apply ret_Ok in E as [_ ->].
  pose proof (foll_trans _ _ _ F1 (foll_trans _ _ _ E2 (foll_trans _ _ _ E3 E4))) as F4.
  exact (foll_trans _ _ _ F4 (foll_trans _ _ _ E56 (foll_trans _ _ _ E7 (foll_trans _ _ _ E8 E9)))).
Qed.

Lemma fallback_foll from v d w z w' : iinv w -> conv_tokenFallback call c from v d w = Ok (z, w') -> foll w w'.
Proof.
  intros J E. unfold conv_tokenFallback in E.
  nxt E w1 E1. unfold require_positive_value in E1. apply require_Ok in E1 as [_ ->].
  apply bind_Ok in E as (sc & w1 & E1 & E). apply this_self in E1 as [Hsc ->]. cbv zeta in E.
  apply bind_Ok in E as (acc & w1 & E1 & E).
  assert (foll w w1) as F1.
  { destruct (bool_decide _ && _).
    - apply bind_Ok in E1 as (b & w2 & E2 & E1). apply ret_Ok in E1 as [_ ->]. eapply views_foll; [|exact J|exact E2]. apply is_active_ok, exec_keeps.
    - apply ret_Ok in E1 as [_ ->]. by apply foll_refl. }
  clear E1. destruct acc; [apply ret_Ok in E as [_ ->]; done|].
  nxt E w2 E2. apply this_self in E2 as [_ ->]. nxt E w2 E2. apply ecall_foll in E2; [|by eapply foll_inv|done].
  nxt E w3 E3. apply require_Ok in E3 as [_ ->]. destruct (conv_request d) as [[t mr]|]; [|done].
  nxt E w3 E3. apply ret_Ok in E as [_ ->]. eapply foll_trans; [exact F1|]. eapply foll_trans; [exact E2|].
  assert (iinv w2) as J2 by (by eapply foll_inv). clear E2 F1 Hsc sc J.
  unfold conv_convert in E3. apply bind_Ok in E3 as (sc & w4 & E4 & E3). apply this_self in E4 as [Hsc ->].
  nxt E3 w4 E4. apply require_Ok in E4 as [_ ->]. nxt E3 w4 E4. unfold require_positive_value in E4. apply require_Ok in E4 as [_ ->].
  nxt E3 w4 E4. apply require_Ok in E4 as [_ ->].
  case_bool_decide; [eapply buy_foll; [exact J2|exact E3]|].
  case_bool_decide; [eapply sell_foll; [exact J2|exact E3]|]. eapply cross_foll; [exact J2|exact E3].
Qed.
End fallback.
End frames.

Theorem R_exec fuel : forall ro s t v m w r w', iinv w -> dframe s t m -> exec fuel ro s t v m w = Ok (r, w') -> R s t m w w'.
Proof.
  induction fuel as [|f IH]; intros ro s t v m w r w' J Hd E; [done|].
  apply exec_inv in E as (w1 & Ei & _ & E); [|apply exec_keeps].
  assert (foll w w1) as F1. { apply foll_same; [done|by eapply move_icx_scores|by eapply move_icx_log]. }
  assert (R s t m w1 w') as (A & B).
  2:{ split; [intros H; eapply foll_trans; [exact F1|by apply A]|]. intros to x d -> -> ->.
      destruct (B to x d eq_refl eq_refl eq_refl) as [z L]. destruct F1 as [y L1]. exists (z + y).
      replace (z + y + x) with (z + x + y) by lia. by eapply logs_trans. }
  assert (iinv w1) as J1 by (by eapply foll_inv). clear F1 Ei J w. pose proof (iinv_ne _ J1) as HCT.
  destruct E as [(n & -> & -> & ->)|(sc & Ht & Hsc & _ & _ & Hh & _ & S)]; [split; [intros; by apply foll_refl|done]|].
  destruct (decide (t = C)) as [->|Hne].
  { split; [|congruence]. intros _. destruct (iinv_C _ J1) as (sc0 & Hsc0 & Hheld). assert (sc0 = sc) as -> by congruence. pose proof (proj1 Hheld) as K. rewrite K in *.
    destruct (match m with MTokenFallback _ _ _ => true | _ => false end) eqn:Hm.
    - destruct m; try done. specialize (Hh ltac:(done)). eapply (fallback_foll f IH); [|exact J1|exact Hh]. done.
    - eapply (esteps_C f IH (frame ro s C v m KConv)); [done|exact Hd| |exact J1|exact S]. intros; by intros ->. }
  split.
  - intros Hn. eapply (esteps_other f IH _ (frame ro s t v m (s_kind sc)) m); [done| |done|exact J1|exact S]. cbn. intros ->.
    split; [destruct J1 as (_ & _ & _ & _ & st & Hst & P); congruence|]. intros ->. destruct (is_pay m) eqn:Hp; [|done]. by destruct Hn.
  - intros to x d -> -> ->. assert (plain (s_kind sc)) as P. { destruct J1 as (_ & _ & _ & _ & st & Hst & P). congruence. }
    specialize (Hh ltac:(destruct P; congruence)). destruct P as [P|P]; rewrite P in Hh; cbn in Hh; unfold done_ in Hh.
    + apply bind_Ok in Hh as (u & w2 & E & Hh). apply ret_Ok in Hh as [_ ->]. eapply (pay_frame f IH); [| |exact J1|exact E]; done.
    + apply bind_Ok in Hh as (u & w2 & E & Hh). apply ret_Ok in Hh as [_ ->]. unfold icx_transferTo in E. apply bind_Ok in E as (u' & w3 & E1 & E).
      unfold require_not_this in E1. apply require_Ok in E1 as [_ ->]. eapply (pay_frame f IH); [| |exact J1|exact E]; done.
Qed.

(* one transaction by anybody but the owner *)
Definition same (w w' : world) : Prop := exists l, w_log w' = l ++ w_log w /\ paid_out C T l = announced C T l.
Lemma foll_weak w w' : foll w w' -> same w w'.
Proof. intros (x & _ & l & El & A & B). exists l. split; [done|]. congruence. Qed.
Lemma same_trans w w1 w' : foll w w1 -> same w1 w' -> same w w'.
Proof.
  intros (x & _ & l1 & E1 & A1 & B1) (l2 & E2 & H2). exists (l2 ++ l1). split; [by rewrite E2, E1, app_assoc|].
  rewrite paid_app, announced_app. lia.
Qed.
Lemma accept_conv f ro s v w r w' : iinv w -> exec f ro s C v MAcceptOwnership w = Ok (r, w') -> same w w'.
Proof.
  intros J E. destruct f as [|f']; [done|]. apply exec_inv in E as (w1 & Ei & _ & E); [|apply exec_keeps].
  assert (foll w w1) as F1 by (apply foll_same; [done|by eapply move_icx_scores|by eapply move_icx_log]).
  eapply same_trans; [exact F1|]. pose proof (foll_inv _ _ F1) as (Z0 & (sc0 & Hsc0 & K & _) & HC & _).
  destruct E as [(n & E & _)|(sc & _ & Hsc & _ & _ & Hh & _)]; [by rewrite E in HC|]. assert (sc0 = sc) as -> by congruence. rewrite K in Hh.
  specialize (Hh ltac:(done)). cbn in Hh. unfold done_, acceptOwnerShip in Hh. mrun Hh. eexists [_]. split; [reflexivity|].
  unfold paid_out, announced, bought, own_events. cbn. by repeat case_decide.
Qed.
End pay.

Theorem same_tx adv C T fuel t w r w' : reachable adv w -> kind_at w C = Some KConv -> in_account_hands w C -> token_of w C <> T ->
  kind_at w T = Some KIrc \/ kind_at w T = Some KIcx -> tx_sender t <> owner_of w C -> run_tx adv fuel t w = Ok (r, w') -> same C T w w'.
Proof.
  intros Hr K ((a0 & Ha) & Hn) Htok KT Hsnd E. pose proof (no_zero_reachable adv w Hr) as Z0.
  assert (iinv C T a0 w) as J.
  { unfold kind_at in K, KT. destruct (w_scores w !! C) as [sc|] eqn:Hsc; [|done]. destruct (w_scores w !! T) as [st|] eqn:Hst; [|by destruct KT].
    destruct (scores_at _ _ _ _ Hr Hsc) as (x & -> & _). destruct (scores_at _ _ _ _ Hr Hst) as (y & -> & _).
    cbn in K, KT. injection K as K. unfold token_of, owner_of, pending_owner_of, var in *. rewrite Hsc in *.
    split; [done|]. split; [exists sc; split; [done|]; by split|]. split; [done|]. split; [done|]. exists st. split; [done|].
    destruct KT as [[= H]|[= H]]; [by left|by right]. }
  rewrite Ha in Hsnd. destruct t as [n X v m|n a i]; cbn in Hsnd.
  - assert ((X = C /\ m = MAcceptOwnership) \/ ~ (X = C /\ m = MAcceptOwnership)) as [[-> ->]|Hd].
    { destruct (decide (X = C)) as [->|Hne]; [|right; by intros [? _]]. destruct m; try (right; by intros [_ ?]). by left. }
    { by eapply accept_conv. }
    eapply foll_weak. eapply R_exec in E as (E & _); [|exact J|].
    + apply E. intros (E' & _). destruct J as (_ & _ & HC & _). by rewrite <- E' in HC.
    + split; [done|]. split; [done|]. intros -> _ ->. by apply Hd.
  - eapply foll_weak. apply deploy_inv in E as (Hz & Hf & _ & E). cbv zeta in E.
    assert (SCORE a <> C) as Hne. { intros <-. unfold kind_at in K. by rewrite Hf in K. }
    assert (SCORE a <> T) as Hne2. { intros <-. unfold kind_at in KT. rewrite Hf in KT. by destruct KT. }
    assert (SCORE a <> zero_score) as Hnz by (intros [= ->]; done).
    set (sc := (init_score i (EOA n) (SCORE a)).1) in *. set (evs := (init_score i (EOA n) (SCORE a)).2) in *.
    assert (foll C T a0 w (wupd (SCORE a) sc evs w)) as F.
    { exists 0. destruct J as (_ & (sc0 & Hsc & Hh) & HC & HT & st & Hst & P). split.
      - split; [cbn; by rewrite lookup_insert_ne|]. split; [exists sc0; cbn; by rewrite lookup_insert_ne|]. split; [done|]. split; [done|].
        exists st. cbn. by rewrite lookup_insert_ne.
      - exists (map (pair (SCORE a)) evs). split; [done|]. unfold paid_out, announced, bought. by rewrite !own_other. }
    destruct E as [-> |(t & reg & f & cn & wt & -> & _ & E)]; [exact F|]. eapply foll_trans; [exact F|].
    eapply (esteps_other adv C T a0 fuel); [| | | |eapply foll_inv; exact F|exact E]; [|done|by intros ?|done].
    intros. by eapply R_exec.
Qed.
