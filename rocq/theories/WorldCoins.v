(* Coins: deposits into and withdrawals from an ICX token contract (C15, C45, C47). *)
From Coq Require Import String Ascii ZArith Lia.
From stdpp Require Import base countable list numbers strings gmap relations.
From Verif Require Import Res FormulaConsts FormulaModel Codec World WorldBasics WorldSteps WorldExec WorldSpec WorldInv WorldMoney WorldAuth WorldNet WorldCalls.
Local Open Scope Z_scope.
Local Open Scope M_scope.
Section coins.
Variable adv : adversary.
Lemma move_paid s t v w : s <> t -> 0 < v -> v <= icx w s -> move_icx s t v w = Ok (tt, paid s t v w).
Proof.
  intros Hst Hv Hb. unfold move_icx. rewrite (proj2 (Z.eqb_neq v 0)) by lia. rewrite (proj2 (Z.ltb_ge v 0)), (proj2 (Z.ltb_ge _ _)) by lia. cbn.
  unfold paid. rewrite lookup_insert_ne by done. done.
Qed.
Lemma paid_icx s t v w a : s <> t -> icx (paid s t v w) a = icx w a - (if decide (a = s) then v else 0) + (if decide (a = t) then v else 0).
Proof.
  intros Hst. unfold paid, icx at 1. cbn. destruct (decide (a = t)) as [->|].
  - rewrite lookup_insert. cbn. rewrite decide_False by done. lia.
  - rewrite lookup_insert_ne by done. case_decide; subst; [rewrite lookup_insert; cbn; lia|]. rewrite lookup_insert_ne by done. unfold icx. lia.
Qed.
(* coins sent to an ordinary account *)
Lemma exec_send_user f ro s n v w r w' : s <> EOA n -> 0 < v ->
  exec adv (S f) ro s (EOA n) v MFallback w = Ok (r, w') <-> ro = false /\ v <= icx w s /\ r = RNone /\ w' = paid s (EOA n) v w.
Proof.
  intros Hs Hv. cbn [exec]. split.
  - intros H. apply bind_Ok in H as (u & w1 & H1 & H). apply require_Ok in H1 as [Hro ->].
    assert (ro = false) as ->. { destruct ro; [|done]. apply negb_true_iff in Hro. cbn in Hro. apply negb_false_iff in Hro. lia. }
    apply bind_Ok in H as ([] & w1 & H1 & H). apply ret_Ok in H as [-> ->].
    assert (v <= icx w s) as Hb by (apply move_icx_Ok in H1; lia). rewrite move_paid in H1 by done. by injection H1 as <-.
  - intros (-> & Hb & -> & ->). apply bind_Ok. exists tt, w. split; [done|]. apply bind_Ok. exists tt, (paid s (EOA n) v w).
    split; [by apply move_paid|done].
Qed.
Variables (f : nat) (s t : addr) (w : world) (sc : score).
Hypothesis Ht : is_contract t = true.
Hypothesis Hsc : w_scores w !! t = Some sc.
Hypothesis K : s_kind sc = KIcx.

Lemma withdrawTo_handler ro v n u w' :
  icx_withdrawTo (exec adv (S f)) (Ctx t s 0 ro) v (EOA n) w = Ok (u, w') <->
  ro = false /\ 0 < v <= balance sc s /\ v <= icx w t /\
  w' = after t (set_supply (s_supply sc - v) (add_bal s (- v) sc)) [EvDestruction v] (paid t (EOA n) v w).
Proof.
  assert (t <> EOA n) as Hne by (by destruct t).
  unfold icx_withdrawTo, require_positive_value, icx_transfer. cbn [c_self c_sender c_ro].
  set (w1 := wput t (set_supply (s_supply sc - v) (add_bal s (- v) sc)) w).
  split.
  - intros H. apply bind_Ok in H as (u0 & w0 & H0 & H). apply require_Ok in H0 as [Hv ->]. apply Z.ltb_lt in Hv.
    apply bind_Ok in H as (sc0 & w0 & H0 & H). apply this_Ok in H0 as [H0 ->]. cbn in H0. assert (sc0 = sc) as -> by congruence.
    apply bind_Ok in H as (u1 & w0 & H1 & H). apply require_Ok in H1 as [Hb ->]. bools.
    apply bind_Ok in H as (u2 & w2 & H2 & H). apply modify_Ok in H2 as (sc1 & H2 & ->). cbn in H2. assert (sc1 = sc) as -> by congruence.
    apply bind_Ok in H as (u3 & w2 & H3 & H). apply modify_Ok in H3 as (sc1 & H3 & ->). cbn [c_self] in H3. rewrite lookup_wput in H3. injection H3 as <-.
    cbn [c_self] in H. rewrite wput_wput in H. change (s_supply (add_bal s (- v) sc)) with (s_supply sc) in H. fold w1 in H.
    apply bind_Ok in H as (r & w2 & H3 & H). apply exec_send_user in H3 as (-> & Hi & _ & ->); [|done|done].
    apply emit_Ok in H as ->. change (icx w1 t) with (icx w t) in Hi. done.
  - intros (-> & [Hv Hb] & Hi & ->).
    apply bind_Ok. exists tt, w. split; [apply require_Ok; split; [by apply Z.ltb_lt|done]|].
    apply bind_Ok. exists sc, w. split; [by apply this_Ok|].
    apply bind_Ok. exists tt, w. split; [apply require_Ok; split; [apply negb_true_iff, Z.ltb_ge; lia|done]|].
    apply bind_Ok. exists tt. eexists. split; [apply modify_Ok; exists sc; split; [done|reflexivity]|].
    apply bind_Ok. exists tt. eexists. split; [apply modify_Ok; eexists; split; [apply lookup_wput|reflexivity]|].
    cbn [c_self]. rewrite wput_wput. change (s_supply (add_bal s (- v) sc)) with (s_supply sc). fold w1.
    apply bind_Ok. exists RNone, (paid t (EOA n) v w1). split; [by apply exec_send_user|].
    by apply (emit_Ok _ _ _ u).
Qed.
Theorem withdrawTo_iff v n r w' :
  exec adv (S (S f)) false s t 0 (MWithdrawTo v (EOA n)) w = Ok (r, w') <->
  (0 < v <= balance sc s /\ v <= icx w t) /\ r = RNone /\
  w' = after t (set_supply (s_supply sc - v) (add_bal s (- v) sc)) [EvDestruction v] (paid t (EOA n) v w).
Proof.
  rewrite (exec_honest_Ok adv (S f) false s t _ w sc _ _ _ Ht Hsc K ltac:(done)). cbn [orb is_readonly].
  cbn -[icx_withdrawTo exec]. unfold done_. split.
  - intros [_ H]. apply bind_Ok in H as (u & w1 & H1 & H). apply ret_Ok in H as [-> ->]. apply withdrawTo_handler in H1 as (_ & A & B & ->). done.
  - intros (H & -> & ->). split; [by left|]. apply bind_Ok. exists tt. eexists. split; [apply withdrawTo_handler; split; [done|]; destruct H; done|reflexivity].
Qed.
Theorem withdraw_iff v r w' : is_contract s = false ->
  exec adv (S (S f)) false s t 0 (MWithdraw v) w = Ok (r, w') <->
  (0 < v <= balance sc s /\ v <= icx w t) /\ r = RNone /\
  w' = after t (set_supply (s_supply sc - v) (add_bal s (- v) sc)) [EvDestruction v] (paid t s v w).
Proof.
  intros Es. rewrite (exec_honest_Ok adv (S f) false s t _ w sc _ _ _ Ht Hsc K ltac:(done)). cbn [orb is_readonly].
  cbn -[icx_withdrawTo exec]. unfold done_.
  pose proof (fun n => withdrawTo_handler false v n) as G.
  destruct s as [n|n] eqn:E; [|done]. split.
  - intros [_ H]. apply bind_Ok in H as (u & w1 & H1 & H). apply ret_Ok in H as [-> ->]. apply G in H1 as (_ & A & B & ->). done.
  - intros (H & -> & ->). split; [by left|]. apply bind_Ok. exists tt. eexists. split; [apply G; split; [done|]; destruct H; done|reflexivity].
Qed.
(* deposits of coins: the deposit method and plain coin transfers *)
Theorem deposit_iff v m r w' : m = MDeposit \/ m = MFallback -> s <> t -> 0 < v ->
  exec adv (S f) false s t v m w = Ok (r, w') <->
  v <= icx w s /\ r = RNone /\
  w' = after t (set_supply (s_supply sc + v) (add_bal s v sc)) [EvIssuance v; EvTransfer t s v data_none] (paid s t v w).
Proof.
  intros Hm Hst Hv.
  assert (icx w s < v \/ v <= icx w s) as [Hb|Hb] by lia.
  { split; [|lia]. intros H. cbn [exec] in H. apply bind_Ok in H as (u & w1 & H1 & H). apply require_Ok in H1 as [_ ->].
    apply bind_Ok in H as ([] & w1 & H1 & H). apply move_icx_Ok in H1. lia. }
  cbn [exec]. unfold bind at 1. cbn [andb require ret negb]. unfold require at 1. cbn [negb]. unfold ret at 1.
  unfold bind at 1. rewrite move_paid by done. destruct t as [nt|nt]; [done|].
  unfold bind at 1. unfold get_score. change (w_scores (paid s (SCORE nt) v w)) with (w_scores w). rewrite Hsc, K.
  assert (is_payable KIcx m = true) as -> by (by destruct Hm as [->| ->]).
  assert (is_readonly m = false) as -> by (by destruct Hm as [->| ->]).
  assert (honest_handler (exec adv f) KIcx (Ctx (SCORE nt) s v (false || false)) m = done_ (icx_deposit (Ctx (SCORE nt) s v false))) as ->
    by (by destruct Hm as [->| ->]).
  set (W := paid s (SCORE nt) v w). assert (w_scores W !! SCORE nt = Some sc) as HW by done.
  unfold icx_deposit. split.
  - intros H. unfold done_ in H. mrun H. cbn in *. split; [done|]. split; [done|]. scunify. rewrite ?wput_wlog, ?wput_wput. done.
  - intros (_ & -> & ->). unfold done_. cbn [orb require andb negb]. unfold require. cbn. eapply Ok_world.
    { mbuild. }
    rewrite ?wput_wput. done.
Qed.
End coins.
