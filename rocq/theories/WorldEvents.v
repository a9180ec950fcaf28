(* Administrative settings can be read off the contracts' event logs. *)
From Coq Require Import String Ascii ZArith Lia.
From stdpp Require Import base countable list numbers strings gmap relations.
From Verif Require Import Res Codec World WorldBasics WorldSteps WorldExec WorldSpec WorldInv WorldMoney WorldAuth.
Local Open Scope Z_scope.

Lemma own_app t l l' : own_events t (l ++ l') = own_events t l ++ own_events t l'.
Proof. unfold own_events. apply omap_app. Qed.
Lemma own_self t evs : own_events t (map (pair t) evs) = evs.
Proof. induction evs as [|e evs IH]; [done|]. cbn. rewrite decide_True by done. by f_equal. Qed.
Lemma own_other t x evs : x <> t -> own_events t (map (pair x) evs) = [].
Proof. intros H. induction evs as [|e evs IH]; [done|]. cbn. by rewrite decide_False. Qed.
Lemma own_none t l : (forall e, (t, e) ∉ l) -> own_events t l = [].
Proof.
  intros H. induction l as [|[x e] l IH]; [done|]. cbn. rewrite decide_False; [|intros ->; apply (H e); set_solver].
  apply IH. intros e' He. apply (H e'). set_solver.
Qed.
Lemma latest_app {X} (f : event -> option X) l l' : latest f (l ++ l') = match latest f l with Some x => Some x | None => latest f l' end.
Proof. induction l as [|e l IH]; [done|]. cbn. by destruct (f e). Qed.
Lemma since_app w w' l : w_log w' = l ++ w_log w -> log_since w w' = l.
Proof.
  intros E. unfold log_since. rewrite E, app_length. replace (length l + length (w_log w) - length (w_log w))%nat with (length l) by lia.
  apply take_app.
Qed.

Section follow.
Variable adv : adversary.
Context {V : Type}.
Variables (proj : score -> V) (f : event -> option V).
Hypothesis proj_step : forall k c m sc sc' evs, s_kind sc = k -> lstep k c m sc sc' evs -> proj sc' = default (proj sc) (latest f evs).
Variable t : addr.
Definition follows (w w' : world) : Prop :=
  exists l, w_log w' = l ++ w_log w /\ forall sc, w_scores w !! t = Some sc ->
    exists sc', w_scores w' !! t = Some sc' /\ proj sc' = default (proj sc) (latest f (own_events t l)).
Lemma follows_refl w : follows w w.
Proof. exists []. split; [done|]. intros sc Hsc. by exists sc. Qed.
Lemma follows_trans w1 w2 w3 : follows w1 w2 -> follows w2 w3 -> follows w1 w3.
Proof.
  intros (l1 & E1 & H1) (l2 & E2 & H2). exists (l2 ++ l1). split; [by rewrite E2, E1, app_assoc|].
  intros sc Hsc. destruct (H1 _ Hsc) as (sc1 & Hsc1 & P1). destruct (H2 _ Hsc1) as (sc2 & Hsc2 & P2). exists sc2. split; [done|].
  rewrite own_app, latest_app, P2, P1. by destruct (latest f (own_events t l2)).
Qed.
Lemma follows_icx s x v w w' u : move_icx s x v w = Ok (u, w') -> follows w w'.
Proof.
  intros H. exists []. split; [by rewrite (move_icx_log _ _ _ _ _ _ H)|]. intros sc Hsc. exists sc. by rewrite (move_icx_scores _ _ _ _ _ _ H).
Qed.
Lemma follows_upd w a sc sc' evs : w_scores w !! a = Some sc -> proj sc' = default (proj sc) (latest f evs) -> follows w (wupd a sc' evs w).
Proof.
  intros Hsc Hp. exists (map (pair a) evs). split; [done|]. intros sc0 H0. cbn. destruct (decide (t = a)) as [->|Hne].
  - rewrite lookup_insert. exists sc'. split; [done|]. rewrite own_self. congruence.
  - rewrite lookup_insert_ne by done. exists sc0. split; [done|]. by rewrite own_other.
Qed.
Theorem follows_tx fuel x w r w' : run_tx adv fuel x w = Ok (r, w') -> follows w w'.
Proof.
  intros H. eapply (tx_ind adv (fun _ => True) (fun _ _ _ _ => True) follows); [..|exact H]; try done.
  - apply follows_refl.
  - apply follows_trans.
  - intros. by eapply follows_icx.
  - intros w1 k c m sc sc' evs _ _ _ Hsc Hk _ _ Hl. eapply follows_upd; [exact Hsc|by eapply proj_step].
  - intros w1 n a i _ _ Hf _. eexists. split; [reflexivity|]. intros sc Hsc. cbn. assert (t <> SCORE a) as Hne by congruence.
    rewrite lookup_insert_ne by done. exists sc. split; [done|]. by rewrite own_other.
  - by destruct x as [|? ? []]; try done; case_match.
Qed.
Theorem follows_later w w' : later adv w w' -> follows w w'.
Proof.
  induction 1 as [w|w w1 w2 (fuel & x & ->) _ IH]; [apply follows_refl|]. eapply follows_trans; [|exact IH].
  unfold apply_tx. destruct (run_tx adv fuel x w) as [[r w1]|] eqn:E; [by eapply follows_tx|apply follows_refl].
Qed.
(* from the installation on *)
Variable v0 : V.
Variable K : kind.
Hypothesis proj_init : forall i n a, install_kind i = K -> proj (init_score i (EOA n) (SCORE a)).1 = default v0 (latest f (init_score i (EOA n) (SCORE a)).2).
Theorem follows_reachable w sc : reachable adv w -> w_scores w !! t = Some sc -> s_kind sc = K -> proj sc = default v0 (latest f (own_events t (w_log w))).
Proof.
  set (P := fun w => (forall e, (t, e) ∈ w_log w -> w_scores w !! t <> None) /\ forall sc, w_scores w !! t = Some sc -> s_kind sc = K -> proj sc = default v0 (latest f (own_events t (w_log w)))).
  intros Hr. revert sc. enough (P w) as [_ ?] by done.
  revert w Hr. apply reachable_ind.
  { intros w (E & EL & _). split; intros; [|by rewrite E in H]. rewrite EL in H. by apply elem_of_nil in H. }
  intros fuel x w r w' Hr HP H. revert HP.
  change (P w -> P w'). clear Hr. eapply (tx_ind adv (fun _ => True) (fun _ _ _ _ => True) (fun w w' => P w -> P w')); [..|exact H]; try done.
  - clear - P. intros w1 w2 w3 A B C. auto.
  - intros s x0 v m w1 w2 _ _ Hm. unfold P. by rewrite (move_icx_scores _ _ _ _ _ _ Hm), (move_icx_log _ _ _ _ _ _ Hm).
  - intros w1 k c m sc sc' evs _ _ _ Hsc Hk _ _ Hl [A B]. unfold P. cbn [w_scores w_log wupd]. destruct (decide (t = c_self c)) as [->|Hne].
    + rewrite lookup_insert. split; [done|]. intros sc0 [= <-] HK. rewrite own_app, own_self, latest_app.
      rewrite (proj_step _ _ _ _ _ _ Hk Hl), (B _ Hsc) by (by rewrite <- HK; symmetry; eapply lstep_kind). by destruct (latest f evs).
    + rewrite lookup_insert_ne by done. rewrite own_app, own_other by done. split; [|done]. intros e He.
      apply elem_of_app in He as [He|He]; [|by eapply A]. apply elem_of_list_fmap in He as (? & [= ? ?] & _). done.
  - intros w1 n a i _ _ Hf _ [A B]. unfold P. cbn [w_scores w_log wupd]. destruct (decide (t = SCORE a)) as [->|Hne].
    + rewrite lookup_insert. split; [done|]. intros sc0 [= <-] HK. rewrite own_app, own_self, latest_app.
      rewrite (own_none (SCORE a)) by (intros e He; by apply (A e)). rewrite proj_init by (by rewrite <- HK; destruct i).
      by destruct (latest f (init_score i (EOA n) (SCORE a)).2).
    + rewrite lookup_insert_ne by done. rewrite own_app, own_other by done. split; [|done]. intros e He.
      apply elem_of_app in He as [He|He]; [|by eapply A]. apply elem_of_list_fmap in He as (? & [= ? ?] & _). done.
  - by destruct x as [|? ? []]; try done; case_match.
Qed.
End follow.

Lemma owner_step k c m sc sc' evs : s_kind sc = k -> lstep k c m sc sc' evs -> s_owner sc' = default (s_owner sc) (latest says_owner evs).
Proof. intros _ Hl. by destruct Hl. Qed.
Lemma manager_step k c m sc sc' evs : s_kind sc = k -> lstep k c m sc sc' evs -> s_manager sc' = default (s_manager sc) (latest says_manager evs).
Proof. intros _ Hl. by destruct Hl. Qed.
Lemma fee_step k c m sc sc' evs : s_kind sc = k -> lstep k c m sc sc' evs -> s_fee sc' = default (s_fee sc) (latest says_fee evs).
Proof. intros _ Hl. by destruct Hl. Qed.
Lemma enabled_step k c m sc sc' evs : s_kind sc = k -> lstep k c m sc sc' evs -> s_enabled sc' = default (s_enabled sc) (latest says_enabled evs).
Proof. intros _ Hl. by destruct Hl. Qed.
Lemma address_step n k c m sc sc' evs : s_kind sc = k -> lstep k c m sc sc' evs ->
  default zero_score (s_addrs sc' !! n) = default (default zero_score (s_addrs sc !! n)) (latest (says_address n) evs).
Proof.
  intros _ Hl. destruct Hl; try done; cbn.
  - case_decide as E; [subst; by rewrite lookup_insert|by rewrite lookup_insert_ne].
  - case_decide as E; [subst; by rewrite lookup_delete|by rewrite lookup_delete_ne].
Qed.
