(* What a transaction cannot do unless its sender calls the contract directly (C73 - C75): nobody, not even an owner or a
   holder, loses anything by calling an untrusted contract. *)
From Coq Require Import String Ascii ZArith Lia.
From stdpp Require Import base countable list numbers strings gmap relations.
From Verif Require Import Res FormulaConsts FormulaModel Codec World WorldBasics WorldSteps WorldExec WorldSpec WorldInv WorldMoney WorldAuth DirectSpec.
Local Open Scope Z_scope.

(* the methods that move ownership *)
Definition owner_method (m : msg) : bool :=
  match m with MTransferOwnership _ | MAcceptOwnership | MTransferTokenOwnership _ | MAcceptTokenOwnership => true | _ => false end.

Section direct.
Variable adv : adversary.
Variable w0 : world.
(* the contracts in question *)
Variable S : addr -> Prop.
Hypothesis S_closed : forall Y Z, S Z -> kind_at w0 Y = Some KConv -> token_of w0 Y = Z -> Y = owner_of w0 Z \/ Y = pending_owner_of w0 Z -> S Y.
(* the calls in question: sender, message *)
Variable bad : addr -> msg -> Prop.
Hypothesis bad_owner : forall s m, owner_method m = true -> bad s m.
Hypothesis bad_disable : forall s s' b, bad s (MDisableTransfer b) -> bad s' (MDisableTokenTransfers b).
Hypothesis bad_withdraw : forall s s' t to v, bad s (MWithdrawTokens t to v) -> bad s' (MWithdrawFromToken t to v).
Hypothesis bad_admin : forall s m, bad s m -> admin_method m = true \/ exists a x, m = MDestroy a x /\ a <> s.

Definition trusted (X : addr) : Prop := is_owned w0 X /\ accountable_owner w0 X /\ S X.

Record dinv (w : world) : Prop := {
  di_kind : forall a k, kind_at w0 a = Some k -> kind_at w a = Some k;
  di_token : forall a, kind_at w0 a <> None -> token_of w a = token_of w0 a;
  di_zero : w_scores w !! zero_score = None;
  di_owner : forall X, trusted X -> owner_of w X = owner_of w0 X;
  di_pending : forall X, trusted X -> pending_owner_of w X = pending_owner_of w0 X }.

Definition dcall (s t : addr) (v : Z) (m : msg) : Prop :=
  s <> zero_score /\ (accountable w0 s -> trusted t -> entitled w0 s t m -> ~ bad s m).

Hypothesis no_eoa : forall n, w_scores w0 !! EOA n = None.
Hypothesis no_zero : w_scores w0 !! zero_score = None.

Lemma accountable_contract a : accountable w0 a -> is_contract a = true -> a <> zero_score ->
  exists k, kind_at w0 a = Some k /\ k <> KAdv /\ (k = KConv -> S a -> trusted a).
Proof.
  intros H Ha Hz. inversion H as [n E| E |a' k Hk K1 K2 E|a' Hk K1 K2 E]; subst; try done.
  - exists k. done.
  - exists KConv. split; [done|]. split; [done|]. intros _ HS. split; [|done]. by exists KConv.
Qed.
Lemma dcall_hcall w k c m sc to v m' : dcall (c_sender c) (c_self c) (c_value c) m -> dinv w ->
  is_contract (c_self c) = true -> w_scores w !! c_self c = Some sc -> s_kind sc = k ->
  hcall k c m sc to v m' -> dcall (c_self c) to v m'.
Proof.
  intros (_ & HA) HI Hc Hs Hk Hcall.
  assert (c_self c <> zero_score) as Hz.
  { intros E. rewrite E in Hs. by rewrite (di_zero _ HI) in Hs. }
  split; [done|]. intros Hsec Hto He Hb.
  destruct (accountable_contract _ Hsec Hc Hz) as (k' & Hk' & Hadv & Hconv).
  assert (k' = k) as ->.
  { pose proof (di_kind _ HI _ _ Hk') as E. unfold kind_at in E. rewrite Hs in E. cbn in E. congruence. }
  assert (k = KConv -> to = s_token sc -> c_self c = owner_of w0 to \/ c_self c = pending_owner_of w0 to ->
    c_sender c = s_owner sc -> m <> MAcceptOwnership -> m <> MAcceptManagement -> bad (c_sender c) m -> False) as Hforward.
  { intros K Et Hr Ho N1 N2 Hbad.
    assert (token_of w0 (c_self c) = to) as Htk.
    { rewrite <- (di_token _ HI) by congruence. unfold token_of. by rewrite (var_sc _ _ _ _ _ Hs). }
    assert (trusted (c_self c)) as HT.
    { apply Hconv; [done|]. eapply S_closed; [|by rewrite Hk', K|exact Htk|exact Hr]. apply Hto. }
    assert (c_sender c = owner_of w0 (c_self c)) as Ec.
    { rewrite Ho, <- (di_owner _ HI _ HT). unfold owner_of. by rewrite (var_sc _ _ _ _ _ Hs). }
    apply (HA ltac:(rewrite Ec; apply HT) HT); [|done]. by destruct m; cbn; auto. }
  destruct (bad_admin _ _ Hb) as [Had|(a & x & Ed & Hne)].
  - destruct Hcall; try done.
    + by destruct m'.
    + subst m. apply Hforward; try done; [by left|]. by apply bad_owner.
    + subst m. apply Hforward; try done; [by right|]. by apply bad_owner.
    + subst m. apply Hforward; try done; [by left|]. by eapply bad_disable.
    + subst m. apply Hforward; try done; [by left|]. by eapply bad_withdraw.
  - destruct Hcall; try congruence. by subst m'.
Qed.
Lemma dcall_adv w a sc to v m : dinv w -> is_contract a = true -> w_scores w !! a = Some sc -> s_kind sc = KAdv -> dcall a to v m.
Proof.
  intros HI Ha Hs Hk. assert (a <> zero_score) as Hz.
  { intros ->. by rewrite (di_zero _ HI) in Hs. }
  split; [done|]. intros Hsec _.
  destruct (accountable_contract _ Hsec Ha Hz) as (k & Hk' & Hadv & _).
  pose proof (di_kind _ HI _ _ Hk') as E. unfold kind_at in E. rewrite Hs in E. cbn in E. congruence.
Qed.
Lemma dinv_icx s t v w w' u : move_icx s t v w = Ok (u, w') -> dinv w -> dinv w'.
Proof.
  intros H [A T B C D]. pose proof (move_icx_scores _ _ _ _ _ _ H) as E.
  split; unfold kind_at, token_of, owner_of, pending_owner_of, var in *; by rewrite E.
Qed.
Lemma trusted_bad w X sc c v m : dinv w -> trusted X -> w_scores w !! X = Some sc -> dcall (c_sender c) X v m -> bad (c_sender c) m ->
  match m with
  | MAcceptOwnership => c_sender c <> s_new_owner sc
  | MAcceptManagement => True
  | _ => c_sender c <> s_owner sc
  end.
Proof.
  intros HI HX Hs (_ & HA) Hm.
  assert (s_owner sc = owner_of w0 X) as E1.
  { rewrite <- (di_owner _ HI _ HX). unfold owner_of. by rewrite (var_sc _ _ _ _ _ Hs). }
  assert (s_new_owner sc = pending_owner_of w0 X) as E2.
  { rewrite <- (di_pending _ HI _ HX). unfold pending_owner_of. by rewrite (var_sc _ _ _ _ _ Hs). }
  pose proof HX as (_ & (S1 & S2) & _). destruct m; try done; intros E; (apply HA; [| |..|exact Hm]; [|exact HX|]); rewrite ?E, ?E1, ?E2; cbn; auto.
Qed.
Lemma dinv_local w k c m sc sc' evs : dinv w -> dcall (c_sender c) (c_self c) (c_value c) m ->
  is_contract (c_self c) = true -> w_scores w !! c_self c = Some sc -> s_kind sc = k ->
  lstep k c m sc sc' evs -> dinv (wupd (c_self c) sc' evs w).
Proof.
  intros HI HA Hc Hs Hk Hl. pose proof HI as [A T B C D].
  assert (forall X, trusted X -> X = c_self c -> s_owner sc' = s_owner sc /\ s_new_owner sc' = s_new_owner sc) as G.
  { intros X HX ->. destruct Hl; try done.
    - subst. by pose proof (trusted_bad _ _ _ _ _ _ HI HX Hs HA ltac:(by apply bad_owner)).
    - subst. by pose proof (trusted_bad _ _ _ _ _ _ HI HX Hs HA ltac:(by apply bad_owner)). }
  split.
  - intros a k0 Hk0. by erewrite kind_at_upd; [apply A| |].
  - intros a Ha. unfold token_of. rewrite var_upd. case_decide as E; [|by apply T]. subst a.
    assert (s_token sc' = s_token sc) as -> by (by destruct Hl). transitivity (token_of w (c_self c)); [|by apply T]. unfold token_of. by rewrite (var_sc _ _ _ _ _ Hs).
  - cbn. rewrite lookup_insert_ne; [done|]. congruence.
  - intros X HX. unfold owner_of. rewrite var_upd. case_decide as E; [|by apply C].
    destruct (G X HX E) as [-> _]. subst X. transitivity (owner_of w (c_self c)); [|by apply C]. unfold owner_of. by rewrite (var_sc _ _ _ _ _ Hs).
  - intros X HX. unfold pending_owner_of. rewrite var_upd. case_decide as E; [|by apply D].
    destruct (G X HX E) as [_ ->]. subst X. transitivity (pending_owner_of w (c_self c)); [|by apply D]. unfold pending_owner_of. by rewrite (var_sc _ _ _ _ _ Hs).
Qed.
Lemma trusted_exists w X : dinv w -> trusted X -> w_scores w !! X <> None.
Proof.
  intros HI ((k & Hk & _) & _). apply (di_kind _ HI) in Hk. unfold kind_at in Hk. by destruct (w_scores w !! X).
Qed.
Lemma dinv_deploy w n a i : dinv w -> a <> 0%N -> w_scores w !! SCORE a = None ->
  dinv (wupd (SCORE a) (init_score i (EOA n) (SCORE a)).1 (init_score i (EOA n) (SCORE a)).2 w).
Proof.
  intros HI Ha Hf. pose proof HI as [A T B C D].
  assert (forall X, trusted X -> X <> SCORE a) as G.
  { intros X HX ->. by apply (trusted_exists _ _ HI HX). }
  split.
  - intros b k Hk. pose proof (A _ _ Hk) as E. unfold kind_at in *. cbn. rewrite lookup_insert_ne; [done|].
    intros <-. by rewrite Hf in E.
  - intros b Hb. unfold token_of. rewrite var_upd, decide_False; [by apply T|].
    intros ->. destruct (kind_at w0 (SCORE a)) eqn:K; [|done]. apply A in K. unfold kind_at in K. by rewrite Hf in K.
  - cbn. rewrite lookup_insert_ne; [done|]. unfold zero_score. congruence.
  - intros X HX. unfold owner_of. rewrite var_upd, decide_False by (by apply G). by apply C.
  - intros X HX. unfold pending_owner_of. rewrite var_upd, decide_False by (by apply G). by apply D.
Qed.
Lemma dinv_start : dinv w0.
Proof. by split. Qed.

(* what the sender of a transaction calls *)
Definition first_call (A : addr -> addr -> Z -> msg -> Prop) (t : tx) : Prop :=
  match t with
  | TCall n to v m => A (EOA n) to v m
  | TDeploy n a (IConv _ _ _ (Some cn) wt) => A (EOA n) (SCORE a) 0 (MAddConnector cn wt false)
  | _ => True
  end.

(* induction over one transaction; J: a further invariant; B: what else is known of the calls that happen, true of calls by contracts *)
Section ind.
Variable J : world -> Prop.
Variable B : addr -> addr -> Z -> msg -> Prop.
Variable R : world -> world -> Prop.
Hypothesis B_contract : forall s t v m, is_contract s = true -> B s t v m.
Hypothesis R1 : forall w, R w w.
Hypothesis R2 : forall w1 w2 w3, R w1 w2 -> R w2 w3 -> R w1 w3.
Hypothesis RJ : forall w w', J w -> R w w' -> J w'.
Hypothesis R3 : forall s t v w w', dinv w -> J w -> move_icx s t v w = Ok (tt, w') -> R w w'.
Hypothesis R4 : forall w k c m sc sc' evs, dinv w -> J w -> dcall (c_sender c) (c_self c) (c_value c) m -> B (c_sender c) (c_self c) (c_value c) m ->
     is_contract (c_self c) = true -> w_scores w !! c_self c = Some sc -> s_kind sc = k ->
     (is_payable k m = true \/ c_value c = 0) -> 0 <= c_value c -> entered (fun w => dinv w /\ J w) k c m ->
     lstep k c m sc sc' evs -> R w (wupd (c_self c) sc' evs w).

Let Inv w := dinv w /\ J w.
Let A s t v m := dcall s t v m /\ B s t v m.
Let RR w w' := Inv w -> Inv w' /\ R w w'.

Lemma direct_exec fuel ro s t v m w r w' : dcall s t v m -> B s t v m -> dinv w -> J w -> exec adv fuel ro s t v m w = Ok (r, w') ->
  dinv w' /\ J w' /\ R w w'.
Proof.
  intros HA HB HI HJ H. enough (Inv w' /\ R w w') as G by (by destruct G as [[? ?] ?]).
  eapply (exec_ind adv Inv A RR); [..|by split|by split|exact H|by split].
  - intros w1 HH. split; [done|apply R1].
  - intros w1 w2 w3 HH1 HH2 HH3. destruct (HH1 HH3) as [A1 A2]. destruct (HH2 A1) as [B1 B2]. split; [done|by eapply R2].
  - intros w1 w2 HH1 HH2. by apply HH2.
  - intros s1 t1 v1 m1 w1 w1' _ _ Hm [HI1 HJ1]. assert (R w1 w1') by (by eapply R3).
    split; [|done]. split; [by eapply dinv_icx|by eapply RJ].
  - intros w1 k c m1 sc sc' evs [HA1 HB1] _ Hc Hsc Hk [Hp He] Hv Hl [HI1 HJ1].
    assert (R w1 (wupd (c_self c) sc' evs w1)) by (by eapply R4).
    split; [|done]. split; [by eapply dinv_local|by eapply RJ].
  - intros w1 k c m1 sc to v1 m' [HA1 HB1] [HI1 _] Hc. intros. split; [by eapply dcall_hcall|by apply B_contract].
  - intros w1 a sc to v1 m1 [HI1 _] Ha. intros. split; [by eapply dcall_adv|by apply B_contract].
Qed.

Hypothesis R5 : forall w n a i, dinv w -> J w -> a <> 0%N -> w_scores w !! SCORE a = None -> init_ok i ->
     R w (wupd (SCORE a) (init_score i (EOA n) (SCORE a)).1 (init_score i (EOA n) (SCORE a)).2 w).
Theorem direct_tx fuel t r w' : J w0 -> first_call dcall t -> first_call B t -> run_tx adv fuel t w0 = Ok (r, w') -> dinv w' /\ J w' /\ R w0 w'.
Proof.
  intros HJ HA HB H. enough (Inv w' /\ R w0 w') as G by (by destruct G as [[? ?] ?]).
  eapply (tx_ind adv Inv A RR); [..|split; [apply dinv_start|done]| |exact H|split; [apply dinv_start|done]].
  - intros w1 HH. split; [done|apply R1].
  - intros w1 w2 w3 HH1 HH2 HH3. destruct (HH1 HH3) as [A1 A2]. destruct (HH2 A1) as [B1 B2]. split; [done|by eapply R2].
  - intros w1 w2 HH1 HH2. by apply HH2.
  - intros s1 t1 v1 m1 w1 w1' _ _ Hm [HI1 HJ1]. assert (R w1 w1') by (by eapply R3).
    split; [|done]. split; [by eapply dinv_icx|by eapply RJ].
  - intros w1 k c m1 sc sc' evs [HA1 HB1] _ Hc Hsc Hk [Hp He] Hv Hl [HI1 HJ1].
    assert (R w1 (wupd (c_self c) sc' evs w1)) by (by eapply R4).
    split; [|done]. split; [by eapply dinv_local|by eapply RJ].
  - intros w1 k c m1 sc to v1 m' [HA1 HB1] [HI1 _] Hc. intros. split; [by eapply dcall_hcall|by apply B_contract].
  - intros w1 a sc to v1 m1 [HI1 _] Ha. intros. split; [by eapply dcall_adv|by apply B_contract].
  - intros w1 n a i _ Ha Hf Hi [HI1 HJ1].
    assert (R w1 (wupd (SCORE a) (init_score i (EOA n) (SCORE a)).1 (init_score i (EOA n) (SCORE a)).2 w1)) by (by apply R5).
    split; [|done]. split; [by apply dinv_deploy|by eapply RJ].
  - destruct t as [n to v m|n a i]; [by split|]. destruct i as [| | |? ? ? [] ?| | |]; try done.
Qed.
End ind.
End direct.

Section uses.
Variable adv : adversary.
Variable w0 : world.
Hypothesis no_eoa : forall n, w_scores w0 !! EOA n = None.
Hypothesis no_zero : w_scores w0 !! zero_score = None.

Definition full (s : addr) (m : msg) : Prop := admin_method m = true.
Lemma full_owner s m : owner_method m = true -> full s m.
Proof. by destruct m. Qed.
Lemma full_admin s m : full s m -> admin_method m = true \/ exists a x, m = MDestroy a x /\ a <> s.
Proof. by left. Qed.
Lemma controls_closed X Y Z : controls w0 X Z -> kind_at w0 Y = Some KConv -> token_of w0 Y = Z -> Y = owner_of w0 Z \/ Y = pending_owner_of w0 Z -> controls w0 X Y.
Proof. intros. by eapply controls_conv. Qed.

(* C73 *)
Theorem settings_direct fuel t r w' X : is_owned w0 X -> accountable_roles w0 X ->
  first_call (dcall w0 (controls w0 X) full) t -> run_tx adv fuel t w0 = Ok (r, w') ->
  owner_of w' X = owner_of w0 X /\ pending_owner_of w' X = pending_owner_of w0 X /\ setting_R X w0 w'.
Proof.
  intros HX (HO & HM & HP) HF H.
  assert (trusted w0 (controls w0 X) X) as HT by (split; [done|]; split; [done|constructor]).
  destruct (direct_tx adv w0 (controls w0 X) (controls_closed X) full full_owner (fun _ _ _ H => H) (fun _ _ _ _ _ H => H) full_admin no_zero
    (setting_R X w0) (fun _ _ _ _ => True) (setting_R X)) with (fuel := fuel) (t := t) (r := r) (w' := w') as (HI' & _ & HR); try done.
  - apply setting_refl.
  - apply setting_trans.
  - intros w1 w2. apply setting_trans.
  - intros s1 t1 v w w1 _ _ Hm sc Hsc. exists sc. split; [by rewrite (move_icx_scores _ _ _ _ _ _ Hm)|apply same_setting_refl].
  - intros w k c m sc sc' evs HI HJ HA _ Hc Hsc Hk _ Hv He Hl sc1 Hsc1. cbn.
    destruct (decide (X = c_self c)) as [->|Hne]; [|rewrite lookup_insert_ne by done; exists sc1; split; [done|apply same_setting_refl]].
    rewrite lookup_insert. exists sc'. split; [done|]. assert (sc1 = sc) as -> by congruence. clear Hsc1.
    assert (exists sc0, w_scores w0 !! c_self c = Some sc0) as (sc0 & Hsc0).
    { pose proof (trusted_exists _ _ _ _ (dinv_start _ _ no_zero) HT) as Hx. destruct (w_scores w0 !! c_self c); [eauto|done]. }
    destruct (HJ _ Hsc0) as (sc2 & Hsc2 & Hset). assert (sc2 = sc) as -> by congruence. clear Hsc2.
    assert (forall w1 sc1, dinv w0 (controls w0 (c_self c)) w1 -> w_scores w1 !! c_self c = Some sc1 -> admin_method m = true ->
      match m with MAcceptOwnership | MAcceptManagement => True | _ => c_sender c <> s_owner sc1 end) as Hown.
    { intros w1 sc1 HI1 Hs1 Hm. pose proof (trusted_bad _ _ full _ _ _ _ _ _ HI1 HT Hs1 HA Hm) as G. by destruct m. }
    assert (forall a, s_manager sc = Some a -> manager_of w0 (c_self c) = Some a) as M1.
    { intros a. unfold manager_of. rewrite (var_sc _ _ _ _ _ Hsc0). destruct Hset as (_ & -> & _). done. }
    assert (forall a, s_new_manager sc = Some a -> pending_manager_of w0 (c_self c) = Some a) as M2.
    { intros a. unfold pending_manager_of. rewrite (var_sc _ _ _ _ _ Hsc0). destruct Hset as (_ & _ & -> & _). done. }
    assert (match m with MTransferManagement _ | MRestoreRegistry | MDisableRegistryUpdate _ | MDisableConversions _ | MSetConversionFee _ => True | _ => False end ->
      (Some (c_sender c) = s_manager sc \/ c_sender c = s_owner sc) -> same_setting sc sc') as Hno.
    { intros Hm Hor. exfalso. destruct Hor as [E|E].
      - symmetry in E. apply M1 in E. destruct HA as [_ HA]. apply (HA (HM _ E) HT); [by destruct m; cbn; auto|by destruct m].
      - specialize (Hown _ _ HI Hsc). by destruct m; try done; apply Hown. }
    destruct Hl; try apply same_setting_refl; try (by repeat split); try (apply Hno; [by subst|tauto]);
      try (subst m; exfalso; by apply (Hown _ _ HI Hsc)).
    + (* accept management *) subst m. exfalso. symmetry in H2. apply M2 in H2. destruct HA as [_ HA]. by apply (HA (HP _ H2) HT).
    + (* virtual balance *) repeat split; apply conn_set_virtual.
    + (* add connector *)
      destruct He as (w1 & sc1 & [HI1 HJ1] & Hsc1 & Hk1 & Hgu). subst m. match goal with K : s_kind sc = KConv |- _ => rewrite K in Hgu | K : k = KConv |- _ => rewrite K in Hgu end. cbn in Hgu.
      by destruct (Hown _ _ HI1 Hsc1 eq_refl).
    + (* update registry *)
      destruct He as (w1 & sc1 & [HI1 HJ1] & Hsc1 & Hk1 & Hgu). subst m. match goal with K : s_kind sc = KConv |- _ => rewrite K in Hgu | K : k = KConv |- _ => rewrite K in Hgu end. cbn in Hgu.
      destruct (HJ1 _ Hsc0) as (sc2 & Hsc2 & Hset1). assert (sc2 = sc1) as -> by congruence.
      assert (s_allow_reg sc = s_allow_reg sc1) as EA.
      { destruct Hset as (_ & _ & _ & -> & _). by destruct Hset1 as (_ & _ & _ & -> & _). }
      destruct Hgu as [Hgu|Hgu].
      * repeat split; cbn; congruence.
      * by destruct (Hown _ _ HI1 Hsc1 eq_refl).
  - intros w n a i HI _ Ha Hf _ sc Hsc. cbn. rewrite lookup_insert_ne by congruence. exists sc. split; [done|apply same_setting_refl].
  - apply setting_refl.
  - destruct t as [|? ? i]; [done|]. by destruct i as [| | |? ? ? [] ?| | |].
  - split; [|split; [|done]]; [by apply (di_owner _ _ _ HI')|by apply (di_pending _ _ _ HI')].
Qed.

(* C22 *)
Definition moves (s : addr) (m : msg) : Prop := owner_method m = true.
Lemma moves_admin s m : moves s m -> admin_method m = true \/ exists a x, m = MDestroy a x /\ a <> s.
Proof. left. by destruct m. Qed.
Theorem ownership_direct fuel t r w' X : is_owned w0 X -> accountable_owner w0 X ->
  first_call (dcall w0 (controls w0 X) moves) t -> run_tx adv fuel t w0 = Ok (r, w') ->
  owner_of w' X = owner_of w0 X /\ pending_owner_of w' X = pending_owner_of w0 X.
Proof.
  intros HX HO HF H.
  assert (trusted w0 (controls w0 X) X) as HT by (split; [done|]; split; [done|constructor]).
  destruct (direct_tx adv w0 (controls w0 X) (controls_closed X) moves (fun _ _ H => H) (fun _ _ _ H => H) (fun _ _ _ _ _ H => H) moves_admin no_zero
    (fun _ => True) (fun _ _ _ _ => True) (fun _ _ => True)) with (fuel := fuel) (t := t) (r := r) (w' := w') as (HI' & _ & HR); try done.
  - destruct t as [|? ? i]; [done|]. by destruct i as [| | |? ? ? [] ?| | |].
  - split; [by apply (di_owner _ _ _ HI')|by apply (di_pending _ _ _ HI')].
Qed.
Lemma ownership_direct_exec fuel ro s t v m r w' X : is_owned w0 X -> accountable_owner w0 X ->
  dcall w0 (controls w0 X) moves s t v m -> exec adv fuel ro s t v m w0 = Ok (r, w') ->
  owner_of w' X = owner_of w0 X /\ pending_owner_of w' X = pending_owner_of w0 X.
Proof.
  intros HX HO HF H.
  assert (trusted w0 (controls w0 X) X) as HT by (split; [done|]; split; [done|constructor]).
  destruct (direct_exec adv w0 (controls w0 X) (controls_closed X) moves (fun _ _ H => H) (fun _ _ _ H => H) (fun _ _ _ _ _ H => H) moves_admin no_zero
    (fun _ => True) (fun _ _ _ _ => True) (fun _ _ => True)) with (fuel := fuel) (ro := ro) (s := s) (t := t) (v := v) (m := m) (w := w0) (r := r) (w' := w') as (HI' & _ & HR); try done.
  split; [by apply (di_owner _ _ _ HI')|by apply (di_pending _ _ _ HI')].
Qed.
End uses.
