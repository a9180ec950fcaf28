(* What the sender of a transaction cannot do: spend others' tokens (C16), take ownership (C22),
   management (C26), change settings (C59). *)
From Coq Require Import String Ascii ZArith Lia.
From stdpp Require Import base countable list numbers strings gmap relations.
From Verif Require Import Res FormulaConsts FormulaModel Codec World WorldBasics WorldSteps WorldExec WorldSpec WorldInv WorldMoney.
Local Open Scope Z_scope.

Lemma balance_of_upd w a sc evs T h : balance_of (wupd a sc evs w) T h = if decide (T = a) then balance sc h else balance_of w T h.
Proof.
  unfold balance_of, var, wupd. cbn. case_decide as E.
  - subst. by rewrite lookup_insert.
  - by rewrite lookup_insert_ne.
Qed.
Lemma balance_of_sc w T sc h : w_scores w !! T = Some sc -> balance_of w T h = balance sc h.
Proof. unfold balance_of, var. by intros ->. Qed.
Lemma balance_of_icx s t v w w' u T h : move_icx s t v w = Ok (u, w') -> balance_of w' T h = balance_of w T h.
Proof. intros H. unfold balance_of, var. by rewrite (move_icx_scores _ _ _ _ _ _ H). Qed.
Lemma var_upd {X} (d : X) f w a sc evs b : var d f (wupd a sc evs w) b = if decide (b = a) then f sc else var d f w b.
Proof. unfold var, wupd. cbn. case_decide; subst; [by rewrite lookup_insert|by rewrite lookup_insert_ne]. Qed.
Lemma var_sc {X} (d : X) f w a sc : w_scores w !! a = Some sc -> var d f w a = f sc.
Proof. unfold var. by intros ->. Qed.
Lemma var_icx {X} (d : X) f s t v w w' u a : move_icx s t v w = Ok (u, w') -> var d f w' a = var d f w a.
Proof. intros H. unfold var. by rewrite (move_icx_scores _ _ _ _ _ _ H). Qed.
Lemma kind_at_upd w c k m sc sc' evs T : w_scores w !! c_self c = Some sc -> lstep k c m sc sc' evs ->
  kind_at (wupd (c_self c) sc' evs w) T = kind_at w T.
Proof.
  intros Hs Hl. unfold kind_at. cbn. destruct (decide (T = c_self c)) as [->|].
  - rewrite lookup_insert, Hs. apply lstep_kind in Hl. cbn. congruence.
  - by rewrite lookup_insert_ne.
Qed.

Section auth.
Variable adv : adversary.

(* ------------------------------------------- C16 for IRC and ICX tokens ---- *)
Lemma holder_local w k c m sc sc' evs T n : kind_at w T = Some KIrc \/ kind_at w T = Some KIcx ->
  w_scores w !! c_self c = Some sc -> s_kind sc = k -> 0 <= c_value c -> c_sender c <> EOA n ->
  lstep k c m sc sc' evs -> balance_of w T (EOA n) <= balance_of (wupd (c_self c) sc' evs w) T (EOA n).
Proof.
  intros HT Hs Hk Hv Hc Hl. rewrite balance_of_upd. case_decide as E; [|lia]. subst T.
  rewrite (balance_of_sc _ _ _ _ Hs). unfold kind_at in HT. rewrite Hs in HT. cbn in HT. rewrite Hk in HT.
  destruct Hl; try (unfold balance; cbn; lia); rewrite ?balance_set_supply, ?balance_add; repeat case_decide; subst; try lia; try done.
  all: destruct HT; congruence.
Qed.
Theorem holder_safe fuel t w r w' T n : kind_at w T = Some KIrc \/ kind_at w T = Some KIcx ->
  tx_sender t <> EOA n -> run_tx adv fuel t w = Ok (r, w') -> balance_of w T (EOA n) <= balance_of w' T (EOA n).
Proof.
  intros HT Hn H.
  set (Inv := fun w => kind_at w T = Some KIrc \/ kind_at w T = Some KIcx).
  enough (Inv w -> Inv w' /\ balance_of w T (EOA n) <= balance_of w' T (EOA n)) as G by (by apply G).
  eapply (tx_ind adv Inv (fun s t v m => s <> EOA n)
    (fun w w' => Inv w -> Inv w' /\ balance_of w T (EOA n) <= balance_of w' T (EOA n))); try done.
  - intros w1 w2 w3 A B C. destruct (A C) as [A1 A2]. destruct (B A1) as [B1 B2]. split; [done|lia].
  - intros w1 w2 A B. by apply B.
  - intros s0 t0 v0 m0 w0 w0' _ _ Hm HI. split; [|by rewrite (balance_of_icx _ _ _ _ _ _ _ _ Hm)].
    unfold Inv, kind_at in *. by rewrite (move_icx_scores _ _ _ _ _ _ Hm).
  - intros w0 k c m sc sc' evs HA _ _ Hs Hk _ Hv Hl HI. split.
    + unfold Inv. by erewrite !kind_at_upd.
    + by eapply holder_local.
  - intros w0 k c m sc to v m' _ _ Hc Hs Hk _ E. by rewrite E in Hc.
  - intros w0 a sc to v m _ Ha _ _ E. by rewrite E in Ha.
  - intros w0 n0 a i _ Ha Hf _ HI. assert (T <> SCORE a) as Hne.
    { intros ->. unfold Inv, kind_at in HI. rewrite Hf in HI. by destruct HI. }
    split; [unfold Inv, kind_at in *; cbn; by rewrite lookup_insert_ne|].
    by rewrite balance_of_upd, decide_False.
  - destruct t as [|n0 a i]; cbn in Hn; [done|]. by destruct i as [| | |? ? ? [] ?| | |].
Qed.

(* ------------------------------------------------------- secure ownership ---- *)
Definition administrative (m : msg) : bool :=
  match m with
  | MTransferOwnership _ | MAcceptOwnership | MTransferManagement _ | MAcceptManagement | MDisableTransfer _
  | MWithdrawTokens _ _ _ | MTransferTokenOwnership _ | MAcceptTokenOwnership | MDisableTokenTransfers _
  | MWithdrawFromToken _ _ _ | MAddConnector _ _ _ | MUpdateConnector _ _ _ _ | MDisableConnectorPurchases _ _
  | MUpdateRegistry | MRestoreRegistry | MDisableRegistryUpdate _ | MDisableConversions _ | MSetConversionFee _
  | MRegisterIcxToken _ _ | MRegisterAddress _ _ | MUnregisterAddress _ => true
  | _ => false
  end.

Section secure.
Variable w0 : world.
Variable n0 : N.
Let s0 : addr := EOA n0.

(* contracts whose ownership is out of reach *)
Definition guarded (X : addr) : Prop :=
  is_owned w0 X /\ secure w0 s0 (owner_of w0 X) /\ secure w0 s0 (pending_owner_of w0 X).

Record sinv (w : world) : Prop := {
  si_kind : forall a k, kind_at w0 a = Some k -> kind_at w a = Some k;
  si_zero : w_scores w !! zero_score = None;
  si_owner : forall X, guarded X -> owner_of w X = owner_of w0 X;
  si_pending : forall X, guarded X -> pending_owner_of w X = pending_owner_of w0 X }.

Definition scall (s t : addr) (v : Z) (m : msg) : Prop :=
  s <> zero_score /\ (forall n, s = EOA n -> n = n0) /\
  (secure w0 s0 s -> administrative m = false /\ forall a x, m = MDestroy a x -> a = s).

Hypothesis no_eoa : forall n, w_scores w0 !! EOA n = None.
Hypothesis no_zero : w_scores w0 !! zero_score = None.

Lemma not_secure_sender : ~ secure w0 s0 s0.
Proof.
  intros H. inversion H as [n Hn E| E |a k Hk _ _ E|a Hk _ _ E]; try done.
  all: unfold kind_at, s0 in Hk; by rewrite no_eoa in Hk.
Qed.
Lemma scall_sender t v m : scall s0 t v m.
Proof. split; [done|]. split; [by intros n [= ->]|]. intros H. by apply not_secure_sender in H. Qed.
(* secure contracts: genuine; converters are guarded *)
Lemma secure_contract a : secure w0 s0 a -> is_contract a = true -> a <> zero_score ->
  exists k, kind_at w0 a = Some k /\ k <> KAdv /\ (k = KConv -> guarded a).
Proof.
  intros H Ha Hz. inversion H as [n Hn E| E |a' k Hk K1 K2 E|a' Hk K1 K2 E]; subst; try done.
  - exists k. done.
  - exists KConv. split; [done|]. split; [done|]. intros _. split; [|done]. by exists KConv.
Qed.
Lemma scall_hcall w k c m sc to v m' : scall (c_sender c) (c_self c) (c_value c) m -> sinv w ->
  is_contract (c_self c) = true -> w_scores w !! c_self c = Some sc -> s_kind sc = k ->
  hcall k c m sc to v m' -> scall (c_self c) to v m'.
Proof.
  intros (_ & _ & HA) HI Hc Hs Hk Hcall.
  assert (c_self c <> zero_score) as Hz.
  { intros E. rewrite E in Hs. by rewrite (si_zero _ HI) in Hs. }
  split; [done|]. split; [intros n E; by rewrite E in Hc|]. intros Hsec.
  destruct (secure_contract _ Hsec Hc Hz) as (k' & Hk' & Hadv & Hconv).
  assert (k' = k) as ->.
  { pose proof (si_kind _ HI _ _ Hk') as E. unfold kind_at in E. rewrite Hs in E. cbn in E. congruence. }
  assert (k = KConv -> c_sender c = s_owner sc -> administrative m = true -> False) as Hforward.
  { intros K Ho Hm. specialize (Hconv K). pose proof (si_owner _ HI _ Hconv) as E.
    unfold owner_of in E. rewrite (var_sc _ _ _ _ _ Hs) in E.
    destruct HA as [HA _]; [|congruence]. rewrite Ho, E. apply Hconv. }
  destruct Hcall; try (exfalso; apply Hforward; subst; done); try (split; [done|intros; congruence]).
  split; [by destruct m'|]. intros; subst; done.
Qed.
Lemma scall_adv w a sc to v m : sinv w -> is_contract a = true -> w_scores w !! a = Some sc -> s_kind sc = KAdv -> scall a to v m.
Proof.
  intros HI Ha Hs Hk. assert (a <> zero_score) as Hz.
  { intros ->. by rewrite (si_zero _ HI) in Hs. }
  split; [done|]. split; [by intros n ->|]. intros Hsec.
  destruct (secure_contract _ Hsec Ha Hz) as (k & Hk' & Hadv & _).
  pose proof (si_kind _ HI _ _ Hk') as E. unfold kind_at in E. rewrite Hs in E. cbn in E. congruence.
Qed.
Lemma sinv_icx s t v w w' u : move_icx s t v w = Ok (u, w') -> sinv w -> sinv w'.
Proof.
  intros H [A B C D]. pose proof (move_icx_scores _ _ _ _ _ _ H) as E.
  split; unfold kind_at, owner_of, pending_owner_of, var in *; by rewrite E.
Qed.
(* the caller of an administrative method of a guarded contract is neither owner nor pending owner *)
Lemma guarded_admin w X sc c t v m : sinv w -> guarded X -> w_scores w !! X = Some sc -> scall (c_sender c) t v m -> administrative m = true ->
  c_sender c <> s_owner sc /\ c_sender c <> s_new_owner sc.
Proof.
  intros HI HX Hs (_ & _ & HA) Hm.
  pose proof (si_owner _ HI _ HX) as E1. pose proof (si_pending _ HI _ HX) as E2.
  unfold owner_of, pending_owner_of in *. rewrite (var_sc _ _ _ _ _ Hs) in E1. rewrite (var_sc _ _ _ _ _ Hs) in E2.
  destruct HX as (_ & S1 & S2). split; intros E; (destruct HA as [HA _]; [|congruence]); rewrite E, ?E1, ?E2; done.
Qed.
Lemma sinv_local w k c m sc sc' evs : sinv w -> scall (c_sender c) (c_self c) (c_value c) m ->
  is_contract (c_self c) = true -> w_scores w !! c_self c = Some sc -> s_kind sc = k ->
  lstep k c m sc sc' evs -> sinv (wupd (c_self c) sc' evs w).
Proof.
  intros HI HA Hc Hs Hk Hl. pose proof HI as [A B C D].
  assert (forall X, guarded X -> X = c_self c -> s_owner sc' = s_owner sc /\ s_new_owner sc' = s_new_owner sc) as G.
  { intros X HX ->. destruct Hl; try done.
    - subst. destruct (guarded_admin _ _ _ _ _ _ _ HI HX Hs HA eq_refl) as [? ?]. done.
    - subst. destruct (guarded_admin _ _ _ _ _ _ _ HI HX Hs HA eq_refl) as [? ?]. done. }
  split.
  - intros a k0 Hk0. by erewrite kind_at_upd; [apply A| |].
  - cbn. rewrite lookup_insert_ne; [done|]. congruence.
  - intros X HX. unfold owner_of. rewrite var_upd. case_decide as E; [|by apply C].
    destruct (G X HX E) as [-> _]. subst X. transitivity (owner_of w (c_self c)); [|by apply C]. unfold owner_of. by rewrite (var_sc _ _ _ _ _ Hs).
  - intros X HX. unfold pending_owner_of. rewrite var_upd. case_decide as E; [|by apply D].
    destruct (G X HX E) as [_ ->]. subst X. transitivity (pending_owner_of w (c_self c)); [|by apply D]. unfold pending_owner_of. by rewrite (var_sc _ _ _ _ _ Hs).
Qed.
Lemma guarded_exists w X : sinv w -> guarded X -> w_scores w !! X <> None.
Proof.
  intros HI ((k & Hk & _) & _). apply (si_kind _ HI) in Hk. unfold kind_at in Hk. by destruct (w_scores w !! X).
Qed.
Lemma sinv_deploy w n a i : sinv w -> a <> 0%N -> w_scores w !! SCORE a = None ->
  sinv (wupd (SCORE a) (init_score i (EOA n) (SCORE a)).1 (init_score i (EOA n) (SCORE a)).2 w).
Proof.
  intros HI Ha Hf. pose proof HI as [A B C D].
  assert (forall X, guarded X -> X <> SCORE a) as G.
  { intros X HX ->. by apply (guarded_exists _ _ HI HX). }
  split.
  - intros b k Hk. pose proof (A _ _ Hk) as E. unfold kind_at in *. cbn. rewrite lookup_insert_ne; [done|].
    intros <-. by rewrite Hf in E.
  - cbn. rewrite lookup_insert_ne; [done|]. unfold zero_score. congruence.
  - intros X HX. unfold owner_of. rewrite var_upd, decide_False by (by apply G). by apply C.
  - intros X HX. unfold pending_owner_of. rewrite var_upd, decide_False by (by apply G). by apply D.
Qed.
Lemma sinv_start : sinv w0.
Proof. by split. Qed.

(* induction over one transaction sent by n0; J: a further invariant *)
Theorem secure_ind (J : world -> Prop) (R : world -> world -> Prop) :
  (forall w, R w w) -> (forall w1 w2 w3, R w1 w2 -> R w2 w3 -> R w1 w3) -> (forall w w', J w -> R w w' -> J w') ->
  (forall s t v w w', sinv w -> J w -> move_icx s t v w = Ok (tt, w') -> R w w') ->
  (forall w k c m sc sc' evs, sinv w -> J w -> scall (c_sender c) (c_self c) (c_value c) m ->
     is_contract (c_self c) = true -> w_scores w !! c_self c = Some sc -> s_kind sc = k ->
     (is_payable k m = true \/ c_value c = 0) -> 0 <= c_value c -> entered (fun w => sinv w /\ J w) k c m ->
     lstep k c m sc sc' evs -> R w (wupd (c_self c) sc' evs w)) ->
  (forall w n a i, sinv w -> J w -> a <> 0%N -> w_scores w !! SCORE a = None -> init_ok i ->
     R w (wupd (SCORE a) (init_score i (EOA n) (SCORE a)).1 (init_score i (EOA n) (SCORE a)).2 w)) ->
  forall fuel t r w', J w0 -> tx_sender t = s0 -> run_tx adv fuel t w0 = Ok (r, w') -> sinv w' /\ J w' /\ R w0 w'.
Proof.
  intros R1 R2 RJ R3 R4 R5 fuel t r w' HJ Hs H.
  enough (sinv w0 /\ J w0 -> (sinv w' /\ J w') /\ R w0 w') as G.
  { destruct G as [[? ?] ?]; [split; [apply sinv_start|done]|done]. }
  eapply (tx_ind adv (fun w => sinv w /\ J w) scall (fun w w' => sinv w /\ J w -> (sinv w' /\ J w') /\ R w w')); try done.
  - intros w1 w2 w3 A B C. destruct (A C) as [A1 A2]. destruct (B A1) as [B1 B2]. split; [done|by eapply R2].
  - intros w1 w2 A B. by apply B.
  - intros s1 t1 v1 m1 w1 w1' _ _ Hm [HI HJ1]. assert (R w1 w1') by (by eapply R3).
    split; [|done]. split; [by eapply sinv_icx|by eapply RJ].
  - intros w1 k c m sc sc' evs HA _ Hc Hsc Hk [Hp He] Hv Hl [HI HJ1].
    assert (R w1 (wupd (c_self c) sc' evs w1)) by (by eapply R4).
    split; [|done]. split; [by eapply sinv_local|by eapply RJ].
  - intros w1 k c m sc to v m' HA [HI _]. intros. by eapply scall_hcall.
  - intros w1 a sc to v m [HI _]. intros. by eapply scall_adv.
  - intros w1 n a i _ Ha Hf Hi [HI HJ1].
    assert (R w1 (wupd (SCORE a) (init_score i (EOA n) (SCORE a)).1 (init_score i (EOA n) (SCORE a)).2 w1)) by (by apply R5).
    split; [|done]. split; [by apply sinv_deploy|by eapply RJ].
  - destruct t as [n to v m|n a i]; cbn in Hs; rewrite Hs.
    + apply scall_sender.
    + destruct i as [| | |? ? ? [] ?| | |]; try done. apply scall_sender.
Qed.

(* C22 *)
Theorem ownership_safe fuel t r w' X : tx_sender t = s0 -> run_tx adv fuel t w0 = Ok (r, w') -> guarded X ->
  owner_of w' X = owner_of w0 X /\ pending_owner_of w' X = pending_owner_of w0 X.
Proof.
  intros Hs H HX. destruct (secure_ind (fun _ => True) (fun _ _ => True)) with (fuel := fuel) (t := t) (r := r) (w' := w') as [HI _]; try done.
  split; [by apply HI|by apply HI].
Qed.

(* C16, flexible tokens *)
Theorem flex_holder_safe fuel t r w' T n : tx_sender t = s0 -> run_tx adv fuel t w0 = Ok (r, w') ->
  kind_at w0 T = Some KFlex -> guarded T -> n <> n0 -> balance_of w0 T (EOA n) <= balance_of w' T (EOA n).
Proof.
  intros Hs H HT HG Hn.
  destruct (secure_ind (fun _ => True) (fun w w' => balance_of w T (EOA n) <= balance_of w' T (EOA n))) with (fuel := fuel) (t := t) (r := r) (w' := w') as (_ & _ & HR); try done.
  - intros. lia.
  - intros s1 t1 v w w1 _ _ Hm. by rewrite (balance_of_icx _ _ _ _ _ _ _ _ Hm).
  - intros w k c m sc sc' evs HI _ HA Hc Hsc Hk _ Hv _ Hl. rewrite balance_of_upd. case_decide as E; [|lia]. subst T.
    rewrite (balance_of_sc _ _ _ _ Hsc).
    pose proof (si_kind _ HI _ _ HT) as E. unfold kind_at in E. rewrite Hsc in E. cbn in E.
    assert (c_sender c <> EOA n) as Hne. { intros Ec. destruct HA as (_ & HA & _). apply HA in Ec. done. }
    destruct Hl; try (unfold balance; cbn; lia); rewrite ?balance_set_supply, ?balance_add; repeat case_decide; subst; try lia; try done.
    exfalso. destruct H3 as [?|H3]; [done|]. destruct HA as (_ & _ & HA).
    pose proof (si_owner _ HI _ HG) as EO. unfold owner_of in EO. rewrite (var_sc _ _ _ _ _ Hsc) in EO.
    destruct HA as [_ HA]; [rewrite H3, EO; apply HG|]. specialize (HA _ _ eq_refl). done.
  - intros w n1 a i HI _ Ha Hf _. rewrite balance_of_upd, decide_False; [lia|]. intros ->. by apply (guarded_exists _ _ HI HG).
Qed.

(* C59: settings *)
Definition opt_secure (o : option addr) : Prop := match o with Some a => secure w0 s0 a | None => True end.
Definition same_setting (sc sc' : score) : Prop :=
  s_transferable sc' = s_transferable sc /\ s_manager sc' = s_manager sc /\ s_new_manager sc' = s_new_manager sc /\
  s_allow_reg sc' = s_allow_reg sc /\ s_conn_tokens sc' = s_conn_tokens sc /\ s_total_weight sc' = s_total_weight sc /\
  s_fee sc' = s_fee sc /\ s_enabled sc' = s_enabled sc /\ s_icx_tokens sc' = s_icx_tokens sc /\ s_addrs sc' = s_addrs sc /\
  (s_allow_reg sc = false -> s_registry sc' = s_registry sc /\ s_prev_registry sc' = s_prev_registry sc) /\
  (forall t, cn_weight (conn sc' t) = cn_weight (conn sc t) /\ cn_venabled (conn sc' t) = cn_venabled (conn sc t) /\
             cn_penabled (conn sc' t) = cn_penabled (conn sc t) /\ cn_set (conn sc' t) = cn_set (conn sc t)).
Lemma same_setting_refl sc : same_setting sc sc.
Proof. by repeat split. Qed.
Lemma same_setting_trans a b c : same_setting a b -> same_setting b c -> same_setting a c.
Proof.
  intros (A1 & A2 & A3 & A4 & A5 & A6 & A7 & A8 & A9 & A10 & A11 & A12) (B1 & B2 & B3 & B4 & B5 & B6 & B7 & B8 & B9 & B10 & B11 & B12).
  repeat split; try congruence.
  - destruct (A11 H). destruct B11; congruence.
  - destruct (A11 H). destruct B11; congruence.
  - destruct (A12 t) as (? & ? & ? & ?), (B12 t) as (? & ? & ? & ?). congruence.
  - destruct (A12 t) as (? & ? & ? & ?), (B12 t) as (? & ? & ? & ?). congruence.
  - destruct (A12 t) as (? & ? & ? & ?), (B12 t) as (? & ? & ? & ?). congruence.
  - destruct (A12 t) as (? & ? & ? & ?), (B12 t) as (? & ? & ? & ?). congruence.
Qed.
Definition setting_R (X : addr) (w w' : world) : Prop :=
  forall sc, w_scores w !! X = Some sc -> exists sc', w_scores w' !! X = Some sc' /\ same_setting sc sc'.
Lemma setting_refl X w : setting_R X w w.
Proof. intros sc H. exists sc. split; [done|apply same_setting_refl]. Qed.
Lemma setting_trans X w1 w2 w3 : setting_R X w1 w2 -> setting_R X w2 w3 -> setting_R X w1 w3.
Proof.
  intros A B sc H. destruct (A _ H) as (sc1 & H1 & E1). destruct (B _ H1) as (sc2 & H2 & E2). exists sc2.
  split; [done|]. by eapply same_setting_trans.
Qed.
Lemma conn_set_virtual sc t z b :
  let cn := conn (set_virtual t z sc) b in
  cn_weight cn = cn_weight (conn sc b) /\ cn_venabled cn = cn_venabled (conn sc b) /\
  cn_penabled cn = cn_penabled (conn sc b) /\ cn_set cn = cn_set (conn sc b).
Proof. unfold set_virtual. cbn zeta. rewrite conn_set_conn. by case_decide; subst. Qed.

Theorem settings_safe fuel t r w' X : tx_sender t = s0 -> run_tx adv fuel t w0 = Ok (r, w') -> guarded X ->
  opt_secure (manager_of w0 X) -> opt_secure (pending_manager_of w0 X) -> setting_R X w0 w'.
Proof.
  intros Hs H HG HM HP.
  destruct (secure_ind (setting_R X w0) (setting_R X)) with (fuel := fuel) (t := t) (r := r) (w' := w') as (_ & _ & HR); try done.
  - apply setting_refl.
  - apply setting_trans.
  - apply setting_trans.
  - intros s1 t1 v w w1 _ _ Hm sc Hsc. exists sc. split; [by rewrite (move_icx_scores _ _ _ _ _ _ Hm)|apply same_setting_refl].
  - intros w k c m sc sc' evs HI HJ HA Hc Hsc Hk _ Hv He Hl sc1 Hsc1. cbn.
    destruct (decide (X = c_self c)) as [->|Hne]; [|rewrite lookup_insert_ne by done; exists sc1; split; [done|apply same_setting_refl]].
    rewrite lookup_insert. exists sc'. split; [done|]. assert (sc1 = sc) as -> by congruence. clear Hsc1.
    assert (exists sc0, w_scores w0 !! c_self c = Some sc0) as (sc0 & Hsc0).
    { pose proof (guarded_exists _ _ sinv_start HG) as Hx. destruct (w_scores w0 !! c_self c); [eauto|done]. }
    destruct (HJ _ Hsc0) as (sc2 & Hsc2 & Hset). assert (sc2 = sc) as -> by congruence. clear Hsc2.
    unfold manager_of, pending_manager_of in HM, HP. rewrite (var_sc _ _ _ _ _ Hsc0) in HM. rewrite (var_sc _ _ _ _ _ Hsc0) in HP.
    assert (administrative m = true -> c_sender c <> s_owner sc /\ Some (c_sender c) <> s_manager sc /\ Some (c_sender c) <> s_new_manager sc) as Hadm.
    { intros Hm. split; [by eapply guarded_admin|]. destruct Hset as (_ & E1 & E2 & _). rewrite E1, E2.
      destruct HA as (_ & _ & HA). split; intros E; rewrite <- E in *; destruct (HA ltac:(done)); congruence. }
    assert (administrative m = true -> (Some (c_sender c) = s_manager sc \/ c_sender c = s_owner sc) -> same_setting sc sc') as Hno.
    { intros Hm [?|?]; destruct (Hadm Hm) as (? & ? & ?); done. }
    assert (administrative m = true -> c_sender c = s_owner sc -> same_setting sc sc') as Hno'.
    { intros Hm ?. apply Hno; auto. }
    destruct Hl; try apply same_setting_refl; try (by repeat split); try (apply Hno; [by subst|tauto]); try (apply Hno'; [by subst|done]).
    + (* accept management *) destruct Hadm as (_ & _ & ?); [by subst|done].
    + (* virtual balance *) repeat split; apply conn_set_virtual.
    + (* add connector *)
      destruct He as (w1 & sc1 & [HI1 HJ1] & Hsc1 & Hk1 & Hgu). subst m. match goal with K : s_kind sc = KConv |- _ => rewrite K in Hgu | K : k = KConv |- _ => rewrite K in Hgu end. cbn in Hgu.
      destruct (guarded_admin _ _ _ _ _ _ _ HI1 HG Hsc1 HA eq_refl) as [? _]. done.
    + (* update registry *)
      destruct He as (w1 & sc1 & [HI1 HJ1] & Hsc1 & Hk1 & Hgu). subst m. match goal with K : s_kind sc = KConv |- _ => rewrite K in Hgu | K : k = KConv |- _ => rewrite K in Hgu end. cbn in Hgu.
      destruct (HJ1 _ Hsc0) as (sc2 & Hsc2 & Hset1). assert (sc2 = sc1) as -> by congruence.
      assert (s_allow_reg sc = s_allow_reg sc1) as EA.
      { destruct Hset as (_ & _ & _ & -> & _). by destruct Hset1 as (_ & _ & _ & -> & _). }
      destruct Hgu as [Hgu|Hgu].
      * repeat split; cbn; congruence.
      * destruct (guarded_admin _ _ _ _ _ _ _ HI1 HG Hsc1 HA eq_refl) as [? _]. done.
  - intros w n a i HI _ Ha Hf _ sc Hsc. cbn. rewrite lookup_insert_ne by congruence. exists sc. split; [done|apply same_setting_refl].
  - apply setting_refl.
Qed.
End secure.
End auth.
