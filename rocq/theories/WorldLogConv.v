(* A converter's balance of any token, the ICX token too, is accounted for by the token's Transfer events: a converter never
   withdraws coins from an ICX token (C84). *)
From Coq Require Import String Ascii ZArith Lia.
From stdpp Require Import base countable list numbers strings gmap relations.
From Verif Require Import Res Codec World WorldBasics WorldSteps WorldExec WorldSpec WorldInv WorldMoney WorldAuth WorldNet WorldLog.
Local Open Scope Z_scope.

Definition wdraw (m : msg) : bool := match m with MWithdraw _ | MWithdrawTo _ _ => true | _ => false end.

Section conv.
Variable adv : adversary.
Variables T C : addr.
Hypothesis Hne : C <> T.

Definition exact (w w' : world) : Prop :=
  kind_at w C = Some KConv -> kind_at w' C = Some KConv /\ unmoved w' T C = unmoved w T C.
Lemma exact_refl w : exact w w. Proof. by split. Qed.
Lemma exact_trans w1 w2 w3 : exact w1 w2 -> exact w2 w3 -> exact w1 w3.
Proof. intros A B K. destruct (A K) as [K2 E2]. destruct (B K2) as [K3 E3]. split; [done|congruence]. Qed.

Theorem exact_exec fuel : forall ro s t v m w r w', (s = C -> wdraw m = false) -> exec adv fuel ro s t v m w = Ok (r, w') -> exact w w'.
Proof.
  induction fuel as [|f IH]; intros ro s t v m w r w' Hs H; [done|]. intros HC.
  split; [by rewrite (exec_kind_back adv _ _ _ _ _ _ _ _ _ C H)|].
  apply exec_inv in H as (w1 & H1 & _ & H); [|apply exec_keeps].
  pose proof (move_icx_scores _ _ _ _ _ _ H1) as ES. pose proof (move_icx_log _ _ _ _ _ _ H1) as EL.
  assert (unmoved w1 T C = unmoved w T C) as <-. { unfold unmoved, balance_of, var. by rewrite ES, EL. }
  assert (kind_at w1 C = Some KConv) as K1. { unfold kind_at in *. by rewrite ES. }
  destruct H as [(n & -> & _ & ->)|(sc & Ht & Hsc & _ & Hpay & Hh & _ & H)]; [done|].
  clear H1 ES EL HC w. rename w1 into w.
  enough (exact w w') as A by by apply A.
  assert (kind_at w t = Some (s_kind sc)) as Kt by (unfold kind_at; by rewrite Hsc).
  destruct (decide (token_kind (s_kind sc) = true)) as [Hk|Hk].
  destruct (transfer_dec m) as [(to & x & d & ->)|Hn].
  { (* the Transfer event comes after the nested calls *)
    assert (s_kind sc <> KAdv) as HnA by (by intros E; rewrite E in Hk).
    eapply token_transfer_inv in Hh as (Hx & _ & Hti & _ & r2 & w2 & E & ->); [|exact Hk|exact Hsc|done]. clear H.
    set (c := frame ro s t v _ _) in *. assert (c_self c = t /\ c_sender c = s) as [Ec Es] by (unfold c; by destruct (s_kind sc)).
    rewrite Ec, Es in *. cbv zeta in E.
    set (w1 := wupd t _ [] w) in E.
    assert (exact w1 w2) as G.
    { destruct (is_contract to); [eapply IH; [|exact E]; done|]. apply ret_Ok in E as [_ ->]. apply exact_refl. }
    assert (kind_at w1 C = Some KConv) as Kw.
    { unfold w1, kind_at. cbn. destruct (decide (C = t)) as [->|]; [rewrite lookup_insert; rewrite Kt in K1; cbn; exact K1|by rewrite lookup_insert_ne]. }
    intros _. destruct (G Kw) as [G1 G2]. split; [exact G1|].
    rewrite unmoved_log. unfold w1 in G2. rewrite unmoved_upd in G2.
    case_decide as HT; [|by rewrite Z.sub_0_r].
    clear Ec Es. subst t. cbn in G2. unfold sum_Z in G2. cbn in G2. unfold unmoved in *. rewrite (balance_of_sc _ _ _ _ Hsc).
    rewrite !balance_add in G2. cbn. repeat case_decide; subst; first [congruence|lia]. }
  (* other methods of tokens and other contracts *)
  all: assert (forall ro0 w2 w3 sc2 to v0 m' r0, s_kind sc2 = s_kind sc -> w_scores w2 !! t = Some sc2 ->
      s_kind sc = KAdv \/ hcall (s_kind sc) (frame ro s t v m (s_kind sc)) m sc2 to v0 m' -> exec adv f ro0 t to v0 m' w2 = Ok (r0, w3) -> exact w2 w3) as Nest
    by (intros ro0 w2 w3 sc2 to v0 m' r0 E2 Hs2 Hc E KC2;
        eapply IH; [|exact E|exact KC2]; intros ->; unfold kind_at in KC2; rewrite Hs2 in KC2; injection KC2 as KC2; rewrite <- E2, KC2 in Hc;
        destruct Hc as [Hc|Hc]; [done|]; inversion Hc; subst; try done; by destruct m').
  - refine (esteps_rel adv f (s_kind sc) (frame ro s t v m (s_kind sc)) m exact _ _ _ _ w w' sc Hsc eq_refl H).
    + apply exact_refl.
    + apply exact_trans.
    + cbn. intros w2 sc2 sc' evs Hs2 Hk2 Hl KC2. split; [etransitivity; [eapply (kind_at_upd w2 (frame ro s t v m (s_kind sc)) (s_kind sc) m sc2 sc' evs C Hs2 Hl)|exact KC2]|].
      rewrite unmoved_upd. case_decide as HT; [|done]. subst t.
      unfold unmoved. rewrite (balance_of_sc _ _ _ _ Hs2).
      destruct Hl; subst; try (cbn; unfold sum_Z, balance; cbn; lia); try (exfalso; apply Hn; eauto; fail).
      all: rewrite ?balance_set_supply, ?balance_add; cbn; unfold sum_Z; cbn.
      all: repeat case_decide; subst; try done; try congruence; try lia.
      all: exfalso; destruct_or!; destruct_and?; subst; specialize (Hs eq_refl); done.
    + cbn. intros. by eapply Nest.
  - refine (esteps_rel adv f (s_kind sc) (frame ro s t v m (s_kind sc)) m exact _ _ _ _ w w' sc Hsc eq_refl H).
    + apply exact_refl.
    + apply exact_trans.
    + cbn. intros w2 sc2 sc' evs Hs2 Hk2 Hl KC2. split; [etransitivity; [eapply (kind_at_upd w2 (frame ro s t v m (s_kind sc)) (s_kind sc) m sc2 sc' evs C Hs2 Hl)|exact KC2]|].
      rewrite unmoved_upd. case_decide as HT; [|done]. subst t.
      unfold unmoved. rewrite (balance_of_sc _ _ _ _ Hs2).
      destruct Hl; subst; try (cbn; unfold sum_Z, balance; cbn; lia); exfalso; apply Hk; try done.
      all: first [done|match goal with H : s_kind _ = _ |- _ => by rewrite H end].
    + cbn. intros. by eapply Nest.
Qed.
Theorem exact_tx fuel t w r w' : is_contract C = true -> w_scores w !! T <> None -> kind_at w C = Some KConv -> run_tx adv fuel t w = Ok (r, w') ->
  kind_at w' C = Some KConv /\ unmoved w' T C = unmoved w T C.
Proof.
  intros HCC HT HC H.
  enough (w_scores w !! T <> None -> w_scores w !! C <> None -> (w_scores w' !! T <> None /\ w_scores w' !! C <> None) /\ exact w w') as G.
  { apply G; [done| |done]. intros E. unfold kind_at in HC. by rewrite E in HC. }
  clear HT HC.
  eapply (tx_rel adv (fun w w' => w_scores w !! T <> None -> w_scores w !! C <> None -> (w_scores w' !! T <> None /\ w_scores w' !! C <> None) /\ exact w w')); [| | | | | |exact H].
  - intros w2 H2 H3. split; [done|apply exact_refl].
  - intros w2 w3 w4 A B D1 D2. destruct (A D1 D2) as [[A1 A2] A3]. destruct (B A1 A2) as [B1 B2]. split; [done|]. by eapply exact_trans.
  - intros n to v m _ E HT HC. split; [|intros KC; eapply exact_exec; [|exact E|exact KC]].
    + destruct (w_scores w !! T) eqn:ET; [|done]. destruct (exec_keeps adv _ _ _ _ _ _ _ _ _ _ _ E ET) as [? ->].
      destruct (w_scores w !! C) eqn:EC; [|done]. destruct (exec_keeps adv _ _ _ _ _ _ _ _ _ _ _ E EC) as [? ->]. done.
    + intros <-. done.
  - intros n X i _ HX Hf _ HT HC. assert (T <> SCORE X) as H1 by congruence. assert (C <> SCORE X) as H2 by congruence.
    split; [cbn; by rewrite !lookup_insert_ne|]. intros KC. split; [unfold kind_at; cbn; by rewrite lookup_insert_ne|].
    by rewrite unmoved_upd, decide_False by done.
  - intros n X i w1 sc cn wt sc' evs _ _ Hs Hk Hl HT HC. split; [|].
    + cbn. split; [destruct (decide (T = SCORE X)) as [->|]|destruct (decide (C = SCORE X)) as [->|]]; by rewrite ?lookup_insert, ?lookup_insert_ne.
    + intros KC. split; [etransitivity; [eapply (kind_at_upd w1 (Ctx (SCORE X) (EOA n) 0 false) KConv (MAddConnector cn wt false) sc sc' evs C Hs Hl)|exact KC]|].
      rewrite unmoved_upd. case_decide as E; [|done]. subst T.
      inversion Hl; subst; try done; try (by destruct_or!).
      unfold unmoved. rewrite (balance_of_sc _ _ _ _ Hs). unfold balance. cbn. unfold sum_Z. cbn. lia.
  - intros n X i ro w1 w2 sc to m' r0 _ _ Hs Hk Hro E HT HC. split; [|intros KC; eapply exact_exec; [|exact E|exact KC]].
    + destruct (w_scores w1 !! T) eqn:ET; [|done]. destruct (exec_keeps adv _ _ _ _ _ _ _ _ _ _ _ E ET) as [? ->].
      destruct (w_scores w1 !! C) eqn:EC; [|done]. destruct (exec_keeps adv _ _ _ _ _ _ _ _ _ _ _ E EC) as [? ->]. done.
    + intros _. by destruct m'.
Qed.
Theorem exact_later w w' : reachable adv w -> w_scores w !! T <> None -> kind_at w C = Some KConv -> later adv w w' ->
  unmoved w' T C = unmoved w T C.
Proof.
  intros Hr HT HC Hl. assert (is_contract C = true) as HCC.
  { unfold kind_at in HC. destruct (w_scores w !! C) as [sc|] eqn:E; [|done]. by destruct (scores_at _ _ _ _ Hr E) as (x & -> & _). }
  clear Hr. induction Hl as [w1|w1 w3 w2 (fl & t & ->) _ IH]; [done|].
  unfold apply_tx in IH. destruct (run_tx adv fl t w1) as [[r w4]|e] eqn:E; [|by apply IH].
  destruct (exact_tx _ _ _ _ _ HCC HT HC E) as [K4 E4]. destruct (tracks_tx adv T C Hne _ _ _ _ _ HT E) as [KT _].
  rewrite IH; [done| |done]. unfold kind_at in KT. destruct (w_scores w4 !! T); [done|]. by destruct (w_scores w1 !! T).
Qed.
End conv.
