(* Who can own contracts: users, unknown contracts, and converters their own token. *)
From Coq Require Import String Ascii ZArith Lia.
From stdpp Require Import base countable list numbers strings gmap relations.
From Verif Require Import Res FormulaConsts FormulaModel Codec World WorldBasics WorldSteps WorldExec WorldSpec WorldInv WorldMoney WorldAuth.
Local Open Scope Z_scope.

Definition can_own (w : world) (a X : addr) : Prop :=
  (exists n, a = EOA n) \/ kind_at w a = Some KAdv \/ (kind_at w a = Some KConv /\ token_of w a = X).
Definition owners_ok (w : world) : Prop := forall X, is_owned w X -> can_own w (owner_of w X) X.

Section owner.
Variable adv : adversary.
Section base.
Variable w0 : world.
Definition obase (w : world) : Prop := owners_ok w /\ forall a, kind_at w a = kind_at w0 a /\ token_of w a = token_of w0 a.
Definition ocall (s t : addr) (v : Z) (m : msg) : Prop := m = MAcceptOwnership -> can_own w0 s t.

Lemma obase_icx s t v w u w' : move_icx s t v w = Ok (u, w') -> obase w -> obase w'.
Proof.
  intros H [A B]. assert (forall a, kind_at w' a = kind_at w a) as K by (intros; unfold kind_at; by rewrite (move_icx_scores _ _ _ _ _ _ H)).
  assert (forall a, token_of w' a = token_of w a) as T by (intros; by apply (var_icx _ _ _ _ _ _ _ _ _ H)).
  split.
  - intros X (k & HX). rewrite K in HX. unfold can_own, owner_of. rewrite (var_icx _ _ _ _ _ _ _ _ _ H), K, T. apply A. by exists k.
  - intros a. by rewrite K, T.
Qed.
Lemma lstep_token k c m sc sc' evs : lstep k c m sc sc' evs -> s_token sc' = s_token sc.
Proof. by destruct 1. Qed.
Lemma token_of_upd w c k m sc sc' evs a : w_scores w !! c_self c = Some sc -> lstep k c m sc sc' evs ->
  token_of (wupd (c_self c) sc' evs w) a = token_of w a.
Proof.
  intros Hs Hl. unfold token_of. rewrite var_upd. case_decide as E; [|done]. subst.
  rewrite (var_sc _ _ _ _ _ Hs). by eapply lstep_token.
Qed.
Lemma obase_local w k c m sc sc' evs : ocall (c_sender c) (c_self c) (c_value c) m -> obase w ->
  w_scores w !! c_self c = Some sc -> s_kind sc = k -> lstep k c m sc sc' evs -> obase (wupd (c_self c) sc' evs w).
Proof.
  intros HA [A B] Hs Hk Hl.
  assert (forall a, kind_at (wupd (c_self c) sc' evs w) a = kind_at w a) as K by (intros; by eapply kind_at_upd).
  assert (forall a, token_of (wupd (c_self c) sc' evs w) a = token_of w a) as T by (intros; by eapply token_of_upd).
  split.
  - intros X (k' & HX). rewrite K in HX. unfold can_own. rewrite !K, !T. unfold owner_of. rewrite var_upd.
    case_decide as E; [subst X|by apply A; exists k'].
    assert (s_owner sc' = s_owner sc \/ (m = MAcceptOwnership /\ s_owner sc' = c_sender c)) as [->|[Hm ->]].
    { destruct Hl; auto. }
    + pose proof (A (c_self c) ltac:(by exists k')) as G. unfold can_own, owner_of in G. by rewrite (var_sc _ _ _ _ _ Hs) in G.
    + destruct (B (c_sender c)) as [B1 B2]. rewrite B1, B2. by apply HA.
  - intros a. by rewrite K, T.
Qed.
Lemma ocall_hcall w k c m sc to v m' : obase w -> w_scores w !! c_self c = Some sc -> s_kind sc = k ->
  hcall k c m sc to v m' -> ocall (c_self c) to v m'.
Proof.
  intros [A B] Hs Hk Hc Hm. destruct Hc; try done; try (subst; done).
  right. right. destruct (B (c_self c)) as [<- <-]. unfold kind_at, token_of. rewrite Hs, (var_sc _ _ _ _ _ Hs). cbn. by split; congruence.
Qed.
Lemma ocall_adv w a sc to v m : obase w -> w_scores w !! a = Some sc -> s_kind sc = KAdv -> ocall a to v m.
Proof. intros [A B] Hs Hk Hm. right. left. destruct (B a) as [<- _]. unfold kind_at. rewrite Hs. cbn. congruence. Qed.
Lemma obase_exec fuel ro s t v m w r w' : ocall s t v m -> obase w -> exec adv fuel ro s t v m w = Ok (r, w') -> obase w'.
Proof.
  intros HA HI H.
  assert (obase w -> obase w') as G; [|by apply G].
  refine (exec_ind adv obase ocall (fun w w' => obase w -> obase w') _ _ _ _ _ _ _ fuel ro s t v m w r w' HA HI H); eauto.
  - intros s1 t1 v1 m1 w1 w2 _ _ Hm. by eapply obase_icx.
  - intros. by eapply obase_local.
  - intros. by eapply ocall_hcall.
  - intros. by eapply ocall_adv.
Qed.
Lemma obase_esteps f c m w w' : ocall (c_sender c) (c_self c) (c_value c) m -> obase w ->
  is_contract (c_self c) = true -> (is_payable KConv m = true \/ c_value c = 0) /\ entered obase KConv c m -> 0 <= c_value c ->
  (exists sc, w_scores w !! c_self c = Some sc /\ s_kind sc = KConv) ->
  esteps adv f KConv c m w w' -> obase w'.
Proof.
  intros HA HI Hc Hp Hv Hk H.
  assert (obase w -> obase w') as G; [|by apply G].
  refine (esteps_ind adv obase ocall (fun w w' => obase w -> obase w') _ _ _ _ _ _ _ f KConv c m w w' HA Hc Hp Hv HI Hk H); eauto.
  - intros s1 t1 v1 m1 w1 w2 _ _ Hm. by eapply obase_icx.
  - intros. by eapply obase_local.
  - intros. by eapply ocall_hcall.
  - intros. by eapply ocall_adv.
Qed.
End base.

Theorem owners_reachable w : reachable adv w -> owners_ok w.
Proof.
  apply (reachable_ind adv owners_ok).
  - intros w0 (H & _) X (k & HX & _). unfold kind_at in HX. by rewrite H in HX.
  - intros fuel t w1 r w2 Hr HP H. destruct t as [n to v m|n a i].
    + cbn in H. destruct (obase_exec w1 fuel false (EOA n) to v m w1 r w2) as [G _]; try done.
      * intros _. left. eauto.
    + apply deploy_inv in H as (Ha & Hf & Hi & H).
      set (w3 := wupd (SCORE a) (init_score i (EOA n) (SCORE a)).1 (init_score i (EOA n) (SCORE a)).2 w1) in *.
      assert (owners_ok w3) as HP3.
      { intros X (k & HX & K1 & K2). unfold w3. unfold owner_of. rewrite var_upd. case_decide as E.
        - subst X. left. exists n. unfold kind_at, w3, wupd in HX. cbn in HX. rewrite lookup_insert in HX. cbn in HX.
          destruct i; cbn in *; congruence.
        - assert (kind_at w1 X = Some k) as HX1. { unfold kind_at, w3, wupd in HX. cbn in HX. by rewrite lookup_insert_ne in HX. }
          pose proof (HP X ltac:(by exists k)) as G. fold (owner_of w1 X).
          assert (forall b k, kind_at w1 b = Some k -> b <> SCORE a) as Hb. { intros b kb Hb ->. unfold kind_at in Hb. by rewrite Hf in Hb. }
          destruct G as [G|[G|[G1 G2]]]; [by left|right; left|right; right].
          + unfold kind_at, wupd. cbn. rewrite lookup_insert_ne; [done|]. intros E1. by eapply Hb.
          + split; [unfold kind_at, wupd; cbn; rewrite lookup_insert_ne; [done|]; intros E1; by eapply Hb|].
            unfold token_of in *. rewrite var_upd. rewrite decide_False; [done|]. by eapply Hb. }
      destruct H as [->|(t & reg & f & cn & wt & -> & Hcn & Hst)]; [done|].
      destruct (obase_esteps w3 fuel (Ctx (SCORE a) (EOA n) 0 false) (MAddConnector cn wt false) w3 w2) as [G _]; try done.
      * split; [by right|]. exists w3. eexists. repeat split; [done|apply lookup_insert|done|done].
      * eexists. split; [apply lookup_insert|done].
Qed.
(* a network never owns anything; a converter owns at most its own token *)
Lemma kind_contract w a k : reachable adv w -> kind_at w a = Some k -> is_contract a = true /\ a <> zero_score.
Proof.
  intros Hr H. unfold kind_at in H. destruct (w_scores w !! a) eqn:E; [|done].
  destruct (scores_at adv w a s Hr E) as (n & -> & Hn). split; [done|]. unfold zero_score. congruence.
Qed.
Corollary net_no_owner w N X : reachable adv w -> kind_at w N = Some KNet -> is_owned w X -> owner_of w X <> N.
Proof.
  intros Hr HN HX E. destruct (owners_reachable w Hr X HX) as [[n G]|[G|[G _]]]; rewrite E in G; try congruence.
  rewrite G in HN. destruct (kind_contract w (EOA n) KNet Hr HN) as [? _]. done.
Qed.
Corollary conv_owns w C X : reachable adv w -> kind_at w C = Some KConv -> is_owned w X -> owner_of w X = C -> token_of w C = X.
Proof.
  intros Hr HN HX E. destruct (owners_reachable w Hr X HX) as [[n G]|[G|[_ G]]]; rewrite E in G; try congruence.
  rewrite G in HN. destruct (kind_contract w (EOA n) KConv Hr HN) as [? _]. done.
Qed.
End owner.
