(* C48: a path through a flexible token that no converter owns. *)
From Coq Require Import String Ascii ZArith Lia.
From stdpp Require Import base countable list numbers strings gmap relations.
From Verif Require Import Res FormulaModel Codec CodecProofs World WorldBasics WorldSteps WorldExec WorldSpec WorldInv WorldMoney WorldAuth WorldNet WorldCalls WorldViews
  WorldConv WorldHop WorldPath WorldOwner WorldCoins WorldTrade WorldMore WorldLive WorldReady.
Local Open Scope Z_scope.

Lemma send_ok adv f s T n x d w : token_at w T -> 0 <= x <= balance_of w T s -> movable w T ->
  exists w', exec adv (S f) false s T 0 (MTransfer (EOA n) x d) w = Ok (RNone, w') /\
    eff w w' (fun X a => credit T s (- x) X a + credit T (EOA n) x X a) zero1 zero2 [(T, EvTransfer s (EOA n) x (default data_none d))].
Proof.
  intros HT Hx Hm. destruct (token_sc _ _ (proj2 HT)) as (sc & Hsc & Hk). eexists. split.
  - eapply (transfer_ok adv f s T (EOA n) x d w sc RNone _ HT Hsc Hx Hm); [|reflexivity]. intros _ E. destruct HT as [HT _]. by rewrite <- E in HT.
  - pose proof (eff_trans _ _ _ _ _ _ _ _ _ _ _ (eff_move w T sc s (EOA n) x Hsc) (eff_log1 _ T (EvTransfer s (EOA n) x (default data_none d)))) as E.
    destruct E as [E1 E2 E3 E4 E5]. constructor; try done.
    + intros X a. rewrite E2. unfold zero2. lia.
Qed.
Theorem trap_succeeds adv f u n b T N G L z v d w : reachable adv w -> kind_at w N = Some KNet -> is_token w T -> is_token w L ->
  kind_at w G = Some KFlex -> owner_of w G = EOA b -> L <> T -> icx_registered w N L = false -> movable w T -> movable w L ->
  asks d (EOA u) [T; G; L] z (EOA n) -> 0 < z -> 0 <= v <= balance_of w T (EOA u) ->
  exists r w', exec adv (S (S (S (S f)))) false (EOA u) T 0 (MTransfer N v (Some d)) w = Ok (r, w') /\
    (forall X a, balance_of w' X a = balance_of w X a + credit T (EOA u) (- v) X a + credit T (EOA b) v X a) /\
    (forall a, icx w' a = icx w a).
Proof.
  intros Hr HN HT HL HG Ho Hne Hreg Hm1 Hm2 Hask Hz Hv.
  destruct (kind_contract adv _ _ _ Hr HN) as [HN1 HN0]. destruct (kind_contract adv _ _ _ Hr HG) as [HG1 _].
  pose proof (kind_token_at adv _ _ Hr HT) as HTa. pose proof (kind_token_at adv _ _ Hr HL) as HLa.
  pose proof HTa as [HT1 _]. destruct (token_sc _ _ HT) as (sc & Hsc & Hk).
  assert (N <> T) as HNT. { intros ->. destruct HT as [E|[E|E]]; congruence. }
  assert (EOA u <> N) as HuN by (by intros <-).
  apply asks_iff in Hask as (j & Hreq & Hj).
  assert (valid_path [T; G; L] = true) as Hvp. { apply valid_path_iff. split; [cbn; lia|]. split; [done|]. cbn. apply NoDup_singleton. }
  set (w1 := wupd T (add_bal N v (add_bal (EOA u) (- v) sc)) [] w).
  pose proof (eff_move w T sc (EOA u) N v Hsc) as E1. fold w1 in E1. pose proof (eff_ledger _ _ _ _ _ _ E1) as L1.
  assert (0 <= v <= balance_of w1 T N) as Hv1.
  { rewrite (eff_bal _ _ _ _ _ _ E1), credit_eq, credit_ne by done. destruct (balances_sum adv w T Hr) as [Hp _]. specialize (Hp N). lia. }
  destruct (send_ok adv (S f) N T b v (Some (hop_data L j)) w1) as (w2 & H2 & E2);
    [by eapply ledger_token_at|done|by apply (ledger_movable _ _ _ L1)|].
  pose proof (eff_ledger _ _ _ _ _ _ E2) as L2.
  assert (balance_of w2 L N = balance_of w1 L N) as EL. { rewrite (eff_bal _ _ _ _ _ _ E2), !credit_ne1 by done. lia. }
  assert (ledger_only w w2) as L12.
  { exact (eff_ledger _ _ _ _ _ _ (eff_trans _ _ _ _ _ _ _ _ _ _ _ E1 E2)). }
  destruct (send_ok adv (S f) N L n 0 (Some data_none) w2) as (w3 & H3 & E3); [by eapply ledger_token_at| |by apply (ledger_movable _ _ _ L12)|].
  { rewrite EL, (eff_bal _ _ _ _ _ _ E1), !credit_ne1 by done. destruct (balances_sum adv w L Hr) as [Hp _]. specialize (Hp N). lia. }
  set (w4 := wlog T (EvTransfer (EOA u) N v d) w3).
  exists RNone, w4. split; [|split].
  - apply (transfer_ok adv _ (EOA u) T N v (Some d) w sc RNone w3); try done.
    rewrite HN1. cbn [default]. change (id d) with d. fold w1.
    assert (kind_at w1 N = Some KNet) as HN' by (rewrite (ledger_kind w w1 N L1); done).
    apply kind_at_Some in HN' as (scN & HscN & KN).
    apply (exec_honest_Ok adv _ false T N _ w1 scN KNet RNone w3 HN1 HscN KN ltac:(done)). split; [by left|].
    cbn -[net_tokenFallback exec]. unfold done_, net_tokenFallback. rewrite bool_decide_eq_false_2 by (intros ->; done). rewrite Hreq. cbn [rq_path rq_min rq_for c_sender]. rewrite Hj.
    apply bind_Ok. exists tt, w3. split; [|done].
    apply bind_Ok. exists tt, w1. split; [by rewrite bool_decide_eq_true_2|].
    apply bind_Ok. exists tt, w1. split; [unfold require_positive_value; apply (require_Ok _ _ _ tt); split; [by apply Z.ltb_lt|done]|].
    apply bind_Ok. exists tt, w1. split; [done|].
    apply bind_Ok. exists tt, w1. split; [unfold require_valid_path; by rewrite Hvp|].
    apply bind_Ok. exists 0, w3. split; [|done].
    unfold convert_for_internal. apply bind_Ok. exists (L, 0), w2. split.
    { cbn [convert_by_path]. unfold ecall. cbn [c_self c_ro].
      apply bind_Ok. exists (RAddr (EOA b)), w1. split.
      { rewrite <- Ho, <- (ledger_owner _ _ G L1). assert (kind_at w1 G = Some KFlex) as HGk by (by rewrite (ledger_kind _ _ _ L1)).
        exact (proj1 (owned_answers adv w1 G HG1 (flex_is_owned _ _ HGk)) _ _ _). }
      apply bind_Ok. exists (EOA b), w1. split; [done|].
      apply bind_Ok. exists (RInt (balance_of w1 L N)), w1. split; [exact (balance_now adv _ _ _ (ledger_token_at _ _ _ L1 HLa) _ _ _)|].
      apply bind_Ok. exists (balance_of w1 L N), w1. split; [done|].
      apply bind_Ok. exists RNone, w2. split; [exact H2|].
      apply bind_Ok. exists (RInt (balance_of w2 L N)), w2. split; [exact (balance_now adv _ _ _ (ledger_token_at _ _ _ L12 HLa) _ _ _)|].
      apply bind_Ok. exists (balance_of w2 L N), w2. split; [done|]. cbn. rewrite EL, Z.sub_diag. done. }
    assert (kind_at w2 N = Some KNet) as HN2 by (rewrite (ledger_kind w w2 N L12); done).
    apply kind_at_Some in HN2 as (scN2 & HscN2 & KN2).
    assert (default false (s_icx_tokens scN2 !! L) = false) as Hreg2.
    { rewrite <- (ledger_icxreg _ _ N L L12) in Hreg. unfold icx_registered, var in Hreg. by rewrite HscN2 in Hreg. }
    cbn iota. apply bind_Ok. exists scN2, w2. split. { cbn. unfold this, get_score. cbn. by rewrite HscN2. }
    rewrite Hreg2. apply bind_Ok. exists RNone, w3. split; [exact H3|done].
  - intros X a. change (balance_of w4 X a) with (balance_of w3 X a).
    rewrite (eff_bal _ _ _ _ _ _ E3), (eff_bal _ _ _ _ _ _ E2), (eff_bal _ _ _ _ _ _ E1). unfold credit. repeat case_decide; subst; lia.
  - intros a. change (icx w4 a) with (icx w3 a). unfold icx.
    rewrite (proj1 (eff_ledger _ _ _ _ _ _ E3)), (proj1 (eff_ledger _ _ _ _ _ _ E2)), (proj1 L1). done.
Qed.
