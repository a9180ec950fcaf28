(* The Transfer events of a token against its balances (C19). *)
From Coq Require Import String Ascii ZArith Lia.
From stdpp Require Import base countable list numbers strings gmap relations.
From Verif Require Import Res Codec World WorldBasics WorldSteps WorldExec WorldSpec WorldInv WorldMoney WorldAuth WorldNet.
Local Open Scope Z_scope.

Definition ev_moved (a : addr) (e : event) : Z :=
  match e with EvTransfer from to v _ => (if decide (to = a) then v else 0) - (if decide (from = a) then v else 0) | _ => 0 end.
Lemma moved_app T a l l' : net_transferred T a (l ++ l') = net_transferred T a l + net_transferred T a l'.
Proof. unfold net_transferred. by rewrite map_app, sum_app. Qed.
Lemma moved_other T a X evs : X <> T -> net_transferred T a (map (pair X) evs) = 0.
Proof.
  intros H. unfold net_transferred. induction evs as [|e evs IH]; [done|]. cbn. unfold sum_Z in *. cbn. rewrite IH.
  by rewrite decide_False.
Qed.
Lemma moved_self T a evs : net_transferred T a (map (pair T) evs) = sum_Z (map (ev_moved a) evs).
Proof. unfold net_transferred. rewrite map_map. f_equal. apply map_ext. intros e. by rewrite decide_True. Qed.
Lemma moved_none T a l : (forall e, (T, e) ∉ l) -> net_transferred T a l = 0.
Proof.
  intros H. unfold net_transferred. induction l as [|[x e] l IH]; [done|]. cbn. unfold sum_Z in *. cbn.
  rewrite IH by (intros e' He; apply (H e'); set_solver). rewrite decide_False; [done|].
  intros ->. apply (H e). set_solver.
Qed.
Definition unmoved (w : world) (T a : addr) : Z := balance_of w T a - net_transferred T a (w_log w).
Lemma unmoved_upd w X sc evs T a :
  unmoved (wupd X sc evs w) T a =
  (if decide (T = X) then balance sc a - sum_Z (map (ev_moved a) evs) - net_transferred T a (w_log w) else unmoved w T a).
Proof.
  unfold unmoved. rewrite balance_of_upd. cbn [w_log wupd]. rewrite moved_app. case_decide as E.
  - subst X. rewrite moved_self. lia.
  - rewrite moved_other by done. lia.
Qed.
Lemma unmoved_log w X e T a : unmoved (wlog X e w) T a = unmoved w T a - (if decide (T = X) then ev_moved a e else 0).
Proof.
  unfold unmoved. change (balance_of (wlog X e w) T a) with (balance_of w T a). cbn [w_log wlog].
  change ((X, e) :: w_log w) with (map (pair X) [e] ++ w_log w). rewrite moved_app. case_decide as E.
  - subst X. rewrite moved_self. cbn. unfold sum_Z. cbn. lia.
  - rewrite moved_other by done. lia.
Qed.

Section log.
Variable adv : adversary.
Variables T a : addr.
Hypothesis Ha : a <> T.

(* ICX tokens: withdrawals are not logged as transfers; the others: exact *)
Definition tracks (w w' : world) : Prop :=
  unmoved w' T a <= unmoved w T a /\ (kind_at w T <> Some KIcx -> unmoved w' T a = unmoved w T a).
Lemma exec_kind_back f ro s t v m w r w' X : exec adv f ro s t v m w = Ok (r, w') -> kind_at w' X = kind_at w X.
Proof.
  intros H. destruct (w_scores w !! X) as [sc|] eqn:E.
  - destruct (kind_at w X) as [k|] eqn:K; [by eapply exec_kind_at|]. unfold kind_at in K. rewrite E in K. done.
  - unfold kind_at. by rewrite E, (exec_no_new adv _ _ _ _ _ _ _ _ _ _ H E).
Qed.
Definition tracksk (w w' : world) : Prop := kind_at w' T = kind_at w T /\ tracks w w'.
Lemma tracksk_trans w1 w2 w3 : tracksk w1 w2 -> tracksk w2 w3 -> tracksk w1 w3.
Proof.
  intros [K1 [A1 B1]] [K2 [A2 B2]]. split; [congruence|]. split; [lia|]. intros H. rewrite B2, B1; [done|done|congruence].
Qed.
Theorem tracks_exec fuel : forall ro s t v m w r w', exec adv fuel ro s t v m w = Ok (r, w') -> tracksk w w'.
Proof.
  induction fuel as [|f IH]; intros ro s t v m w r w' H; [done|].
  split; [by eapply exec_kind_back|].
  pose proof (exec_kind_back (S f) _ _ _ _ _ _ _ _ T H) as HK.
  apply exec_inv in H as (w1 & H1 & _ & H); [|apply exec_keeps].
  pose proof (move_icx_scores _ _ _ _ _ _ H1) as ES. pose proof (move_icx_log _ _ _ _ _ _ H1) as EL.
  assert (unmoved w1 T a = unmoved w T a) as E1. { unfold unmoved, balance_of, var. by rewrite ES, EL. }
  assert (kind_at w1 T = kind_at w T) as K1. { unfold kind_at. by rewrite ES. }
  enough (tracks w1 w') as [A B]. { split; [lia|]. intros HT. rewrite <- E1. apply B. congruence. }
  destruct H as [(n & -> & _ & ->)|(sc & Ht & Hsc & _ & Hpay & Hh & _ & H)]; [by split|].
  clear E1 H1 ES EL HK K1 w. rename w1 into w.
  assert (kind_at w t = Some (s_kind sc)) as Kt by (unfold kind_at; by rewrite Hsc).
  destruct (decide (token_kind (s_kind sc) = true)) as [Hk|Hk].
  destruct (transfer_dec m) as [(to & x & d & ->)|Hn].
  { (* the Transfer event comes after the nested calls *)
    assert (s_kind sc <> KAdv) as HnA by (by intros E; rewrite E in Hk).
    eapply token_transfer_inv in Hh as (Hx & _ & Hti & _ & r2 & w2 & E & ->); [|exact Hk|exact Hsc|done]. clear H.
    set (c := frame ro s t v _ _) in *. assert (c_self c = t /\ c_sender c = s) as [Ec Es] by (unfold c; by destruct (s_kind sc)).
    rewrite Ec, Es in *. cbv zeta in E.
    set (w1 := wupd t _ [] w) in E.
    assert (tracksk w1 w2) as [G1 G2].
    { destruct (is_contract to); [by eapply IH|]. apply ret_Ok in E as [_ ->]. split; [done|by split]. }
    assert (kind_at w1 T = kind_at w T) as Kw.
    { unfold w1, kind_at. cbn. destruct (decide (T = t)) as [->|]; [by rewrite lookup_insert, Hsc|by rewrite lookup_insert_ne]. }
    unfold tracks in *. rewrite unmoved_log. rewrite Kw in G2. unfold w1 in G2. rewrite unmoved_upd in G2.
    case_decide as HT; [|by rewrite Z.sub_0_r].
    clear Ec Es. subst t. cbn in G2. unfold sum_Z in G2. cbn in G2. unfold unmoved in *. rewrite (balance_of_sc _ _ _ _ Hsc).
    rewrite !balance_add in G2. cbn. split.
    - destruct G2 as [G2 _]. repeat case_decide; subst; first [congruence|lia].
    - intros HKT. specialize (proj2 G2 HKT) as G3. repeat case_decide; subst; first [congruence|lia]. }
  (* other methods of tokens and other contracts *)
  - refine (proj2 (esteps_rel adv f (s_kind sc) (frame ro s t v m (s_kind sc)) m tracksk _ _ _ _ w w' sc Hsc eq_refl H)).
    + intros. split; [done|by split].
    + apply tracksk_trans.
    + cbn. intros w2 sc2 sc' evs Hs2 Hk2 Hl. split; [by eapply (kind_at_upd w2 (frame ro s t v m (s_kind sc)))|].
      unfold tracks. rewrite unmoved_upd. case_decide as HT; [|done]. subst t.
      unfold unmoved. rewrite (balance_of_sc _ _ _ _ Hs2).
      assert (kind_at w2 T = Some (s_kind sc)) as -> by (unfold kind_at; by rewrite Hs2, <- Hk2).
      destruct Hl; subst; try (cbn; unfold sum_Z, balance; cbn; split; intros; lia); try (exfalso; apply Hn; eauto; fail).
      all: rewrite ?balance_set_supply, ?balance_add; cbn; unfold sum_Z; cbn.
      all: repeat case_decide; subst; try done; split; intros; first [congruence|lia].
    + cbn. intros. by eapply IH.
  - refine (proj2 (esteps_rel adv f (s_kind sc) (frame ro s t v m (s_kind sc)) m tracksk _ _ _ _ w w' sc Hsc eq_refl H)).
    + intros. split; [done|by split].
    + apply tracksk_trans.
    + cbn. intros w2 sc2 sc' evs Hs2 Hk2 Hl. split; [by eapply (kind_at_upd w2 (frame ro s t v m (s_kind sc)))|].
      unfold tracks. rewrite unmoved_upd. case_decide as HT; [|done]. subst t.
      unfold unmoved. rewrite (balance_of_sc _ _ _ _ Hs2).
      destruct Hl; subst; try (cbn; unfold sum_Z, balance; cbn; split; intros; lia); exfalso; apply Hk; try done.
      all: first [done|match goal with H : s_kind _ = _ |- _ => by rewrite H end].
    + cbn. intros. by eapply IH.
Qed.
Theorem tracks_tx fuel t w r w' : w_scores w !! T <> None -> run_tx adv fuel t w = Ok (r, w') -> tracksk w w'.
Proof.
  intros HT H. enough (w_scores w !! T <> None -> w_scores w' !! T <> None /\ tracksk w w') as G by (by apply G).
  clear HT. eapply (tx_rel adv (fun w w' => w_scores w !! T <> None -> w_scores w' !! T <> None /\ tracksk w w')); [| | | | | |exact H].
  - intros w2 H2. split; [done|]. split; [done|by split].
  - intros w2 w3 w4 A B C. destruct (A C) as [A1 A2]. destruct (B A1) as [B1 B2]. split; [done|]. by eapply tracksk_trans.
  - intros n to v m _ E HK. split; [|by eapply tracks_exec].
    destruct (w_scores w !! T) eqn:ET; [|done]. destruct (exec_keeps adv _ _ _ _ _ _ _ _ _ _ _ E ET) as [? ->]. done.
  - intros n X i _ HX Hf _ HK. assert (T <> SCORE X) as Hne by congruence.
    split; [cbn; by rewrite lookup_insert_ne|]. split; [unfold kind_at; cbn; by rewrite lookup_insert_ne|].
    unfold tracks. rewrite unmoved_upd, decide_False by done. done.
  - intros n X i w1 sc cn wt sc' evs _ _ Hs Hk Hl HK. split; [|split].
    + cbn. destruct (decide (T = SCORE X)) as [->|]; [by rewrite lookup_insert|by rewrite lookup_insert_ne].
    + eapply (kind_at_upd w1 (Ctx (SCORE X) (EOA n) 0 false)); [exact Hs|exact Hl].
    + unfold tracks. rewrite unmoved_upd. case_decide as E; [|done]. subst T.
      inversion Hl; subst; try done; try (by destruct_or!).
      unfold unmoved. rewrite (balance_of_sc _ _ _ _ Hs). unfold balance. cbn. unfold sum_Z. cbn. split; intros; lia.
  - intros n X i ro w1 w2 sc to m' r0 _ _ Hs Hk _ E HK. split; [|by eapply tracks_exec].
    destruct (w_scores w1 !! T) eqn:ET; [|done]. destruct (exec_keeps adv _ _ _ _ _ _ _ _ _ _ _ E ET) as [? ->]. done.
Qed.
Theorem tracks_later w w' : w_scores w !! T <> None -> later adv w w' -> tracksk w w'.
Proof.
  intros HT Hl. induction Hl as [w1|w1 w3 w2 (fl & t & ->) _ IH]; [split; [done|by split]|].
  unfold apply_tx in IH. destruct (run_tx adv fl t w1) as [[r' w1']|] eqn:E; [|by apply IH].
  eapply tracksk_trans; [by eapply tracks_tx|]. apply IH.
  destruct (w_scores w1 !! T) as [sc|] eqn:Es; [|done].
  destruct (ident_tx _ _ _ _ _ _ E _ _ Es) as (sc' & -> & _). done.
Qed.
End log.

(* at the installation of a token nothing is logged yet by it but the initial supply belongs to the deployer *)
Lemma unmoved_deploy adv fuel n a i w r w' h : reachable adv w -> run_tx adv fuel (TDeploy n a i) w = Ok (r, w') ->
  install_kind i <> KConv -> h <> SCORE a ->
  w_scores w' !! SCORE a <> None /\ kind_at w' (SCORE a) = Some (install_kind i) /\
  unmoved w' (SCORE a) h = (if decide (h = EOA n) then match i with IIrc _ _ x e | IFlex _ _ x e => x * 10 ^ e | _ => 0 end else 0).
Proof.
  intros Hr H Hk Hh. pose proof (fun e => log_from adv w (SCORE a) e Hr) as HL.
  apply deploy_inv in H as (Ha & Hf & Hi & H).
  destruct H as [->|(t & reg & fe & cn & wt & -> & Hcn & Hst)]; [|done].
  split; [cbn; by rewrite lookup_insert|]. split; [unfold kind_at; cbn; rewrite lookup_insert; by destruct i|].
  rewrite unmoved_upd, decide_True by done.
  rewrite moved_none by (intros e He; by apply (HL e He)).
  destruct i; cbn; unfold balance; cbn; unfold sum_Z; cbn; try done; try (case_decide; done).
  all: case_decide as E; [subst h; rewrite lookup_singleton; cbn; lia|rewrite lookup_singleton_ne by done; cbn; lia].
Qed.
