(* What an account can lose in one transaction, and by which calls (C74, C75). *)
From Coq Require Import String Ascii ZArith Lia.
From stdpp Require Import base countable list numbers strings gmap relations.
From Verif Require Import Res FormulaConsts FormulaModel Codec World WorldBasics WorldSteps WorldExec WorldSpec WorldInv WorldMoney WorldAuth DirectSpec
  WorldDirect WorldCalls WorldHop WorldOwner WorldTrade Properties_Tokens.
Local Open Scope Z_scope.

Section loss.
Variable adv : adversary.
Variable n : N.

(* ---- coins ---- *)
Lemma icx_not_sender fuel ro s t v m w r w' : is_contract s = true -> exec adv fuel ro s t v m w = Ok (r, w') -> icx w (EOA n) <= icx w' (EOA n).
Proof.
  intros Hs H. eapply (exec_ind adv (fun _ => True) (fun s _ _ _ => is_contract s = true) (fun w w' => icx w (EOA n) <= icx w' (EOA n))); try done.
  - intros. lia.
  - intros s1 t1 v1 m1 w1 w2 H1 _ Hm. pose proof (move_icx_nonneg _ _ _ _ _ _ Hm). rewrite (move_icx_eq _ _ _ _ _ _ Hm).
    rewrite (decide_False (P := EOA n = s1)) by (by intros <-). case_decide; lia.
Qed.
Lemma icx_esteps f k c m w w' : is_contract (c_self c) = true -> esteps adv f k c m w w' -> icx w (EOA n) <= icx w' (EOA n).
Proof.
  intros Hc H. induction H as [|w1 w2 w3 H1 H2 IH]; [lia|]. etransitivity; [|exact IH].
  destruct H1; [done|]. by eapply icx_not_sender.
Qed.
Theorem icx_loss fuel t w r w' : run_tx adv fuel t w = Ok (r, w') ->
  icx w (EOA n) - (match t with TCall k _ v _ => if decide (k = n) then v else 0 | TDeploy _ _ _ => 0 end) <= icx w' (EOA n).
Proof.
  intros H. destruct t as [k to v m|k a i].
  - cbn in H. destruct fuel as [|f]; [done|]. apply exec_inv in H as (w1 & H1 & _ & H); [|apply exec_keeps].
    pose proof (move_icx_nonneg _ _ _ _ _ _ H1) as Hv. pose proof (move_icx_eq _ _ _ _ _ _ H1 (EOA n)) as E.
    assert (icx w1 (EOA n) <= icx w' (EOA n)) as G.
    { destruct H as [(n1 & _ & _ & ->)|(sc & Hc & _ & _ & _ & _ & _ & H)]; [lia|]. by eapply icx_esteps in H. }
    destruct (decide (EOA n = EOA k)) as [Ek|Nk].
    + injection Ek as <-. rewrite decide_True by done. case_decide; lia.
    + rewrite decide_False by congruence. case_decide; lia.
  - apply deploy_inv in H as (_ & _ & _ & H). cbn zeta in H. destruct H as [->|(t & reg & f & cn & wt & -> & _ & H)].
    + cbn. unfold icx. cbn. lia.
    + eapply icx_esteps in H; [|done]. unfold icx in *. cbn in *. lia.
Qed.

(* ---- tokens ---- *)
Variable T : addr.
Definition spending (m : msg) : Prop :=
  match m with MTransfer _ _ _ | MWithdraw _ | MWithdrawTo _ _ => True | MDestroy a _ => a = EOA n | _ => False end.
Definition no_spend (s t : addr) (v : Z) (m : msg) : Prop := s = EOA n -> t = T -> ~ spending m.
Definition kept (w w' : world) : Prop := balance_of w T (EOA n) <= balance_of w' T (EOA n).
Lemma kept_refl w : kept w w. Proof. unfold kept. lia. Qed.
Lemma kept_trans w1 w2 w3 : kept w1 w2 -> kept w2 w3 -> kept w1 w3. Proof. unfold kept. lia. Qed.
Lemma no_spend_contract s t v m : is_contract s = true -> no_spend s t v m.
Proof. intros H E. by rewrite E in H. Qed.

(* a local step that takes from the account is a spending message of its own, or destroy by the owner *)
Lemma kept_local w k c m sc sc' evs : w_scores w !! c_self c = Some sc -> s_kind sc = k -> 0 <= c_value c -> no_spend (c_sender c) (c_self c) (c_value c) m ->
  (forall x, k = KFlex -> m = MDestroy (EOA n) x -> T = c_self c -> c_sender c <> EOA n -> c_sender c <> s_owner sc) ->
  lstep k c m sc sc' evs -> kept w (wupd (c_self c) sc' evs w).
Proof.
  intros Hs Hk Hv Hn Hd Hl. unfold kept. rewrite balance_of_upd. case_decide as ET; [|lia].
  rewrite ET, (balance_of_sc _ _ _ _ Hs). unfold no_spend in Hn.
  destruct Hl; try (unfold balance; cbn; lia); rewrite ?balance_set_supply, ?balance_add; repeat case_decide; subst; try lia; try done.
  - exfalso. by apply Hn.
  - exfalso. apply Hn; [done..|]. by destruct H0 as [->|[-> _]].
  - exfalso. destruct (decide (c_sender c = EOA n)) as [Ec|Nc]; [by apply Hn|]. destruct H2 as [?|E]; [done|]. by eapply Hd.
Qed.

(* IRC and ICX tokens *)
Definition plain (w : world) : Prop := kind_at w T = Some KIrc \/ kind_at w T = Some KIcx.
Lemma plain_exec fuel ro s t v m w r w' : plain w -> no_spend s t v m -> exec adv fuel ro s t v m w = Ok (r, w') -> kept w w'.
Proof.
  intros HT Hn H. enough (plain w -> plain w' /\ kept w w') as G by (by apply G).
  eapply (exec_ind adv plain no_spend (fun w w' => plain w -> plain w' /\ kept w w')); try done.
  - intros w1 A. split; [done|apply kept_refl].
  - intros w1 w2 w3 A B C. destruct (A C) as [A1 A2]. destruct (B A1) as [B1 B2]. split; [done|by eapply kept_trans].
  - intros w1 w2 A B. by apply B.
  - intros s0 t0 v0 m0 w0 w0' _ _ Hm HI. split; [|unfold kept; by rewrite (balance_of_icx _ _ _ _ _ _ _ _ Hm)].
    unfold plain, kind_at in *. by rewrite (move_icx_scores _ _ _ _ _ _ Hm).
  - intros w0 k c m0 sc sc' evs HA _ _ Hs Hk _ Hv Hl HI. split.
    + unfold plain. by erewrite !kind_at_upd.
    + eapply kept_local; try done. intros x -> _ ET _. unfold plain, kind_at in HI. rewrite ET, Hs in HI. cbn in HI. rewrite Hk in HI. by destruct HI.
  - intros. by apply no_spend_contract.
  - intros. by apply no_spend_contract.
Qed.
Lemma plain_tx fuel t w r w' : plain w -> first_call no_spend t -> run_tx adv fuel t w = Ok (r, w') -> kept w w'.
Proof.
  intros HT Hn H. enough (plain w -> plain w' /\ kept w w') as G by (by apply G).
  eapply (tx_ind adv plain no_spend (fun w w' => plain w -> plain w' /\ kept w w')); try done.
  - intros w1 A. split; [done|apply kept_refl].
  - intros w1 w2 w3 A B C. destruct (A C) as [A1 A2]. destruct (B A1) as [B1 B2]. split; [done|by eapply kept_trans].
  - intros w1 w2 A B. by apply B.
  - intros s0 t0 v0 m0 w0 w0' _ _ Hm HI. split; [|unfold kept; by rewrite (balance_of_icx _ _ _ _ _ _ _ _ Hm)].
    unfold plain, kind_at in *. by rewrite (move_icx_scores _ _ _ _ _ _ Hm).
  - intros w0 k c m0 sc sc' evs HA _ _ Hs Hk _ Hv Hl HI. split.
    + unfold plain. by erewrite !kind_at_upd.
    + eapply kept_local; try done. intros x -> _ ET _. unfold plain, kind_at in HI. rewrite ET, Hs in HI. cbn in HI. rewrite Hk in HI. by destruct HI.
  - intros. by apply no_spend_contract.
  - intros. by apply no_spend_contract.
  - intros w0 n0 a i _ Ha Hf _ HI. assert (T <> SCORE a) as Hne.
    { intros E. unfold plain, kind_at in HI. rewrite E, Hf in HI. by destruct HI. }
    split; [unfold plain, kind_at in *; cbn; by rewrite lookup_insert_ne|].
    unfold kept. by rewrite balance_of_upd, decide_False.
Qed.

(* flexible tokens *)
Definition seize (s : addr) (m : msg) : Prop := owner_method m = true \/ exists a x, m = MDestroy a x /\ a <> s.
Lemma seize_owner s m : owner_method m = true -> seize s m. Proof. by left. Qed.
Lemma seize_disable s s' b : seize s (MDisableTransfer b) -> seize s' (MDisableTokenTransfers b).
Proof. by intros [|(a & x & ? & _)]. Qed.
Lemma seize_withdraw s s' t to v : seize s (MWithdrawTokens t to v) -> seize s' (MWithdrawFromToken t to v).
Proof. by intros [|(a & x & ? & _)]. Qed.
Lemma seize_admin s m : seize s m -> admin_method m = true \/ exists a x, m = MDestroy a x /\ a <> s.
Proof. intros [H|H]; [left; by destruct m|by right]. Qed.

Section flex.
Variable w0 : world.
Hypothesis no_zero : w_scores w0 !! zero_score = None.
Hypothesis T_flex : kind_at w0 T = Some KFlex.
Hypothesis T_owner : accountable_owner w0 T.
Notation S := (controls w0 T).
Notation dinv := (dinv w0 S).
Notation dcall := (dcall w0 S seize).
Lemma T_trusted : trusted w0 S T.
Proof. split; [by exists KFlex|]. split; [done|constructor]. Qed.
Lemma flex_local w k c m sc sc' evs : dinv w -> True -> dcall (c_sender c) (c_self c) (c_value c) m -> no_spend (c_sender c) (c_self c) (c_value c) m ->
  is_contract (c_self c) = true -> w_scores w !! c_self c = Some sc -> s_kind sc = k ->
  (is_payable k m = true \/ c_value c = 0) -> 0 <= c_value c -> entered (fun w => dinv w /\ True) k c m ->
  lstep k c m sc sc' evs -> kept w (wupd (c_self c) sc' evs w).
Proof.
  intros HI _ HA HB _ Hs Hk _ Hv _ Hl. eapply kept_local; try done.
  intros x -> -> ET Hne. rewrite <- ET in Hs, HA.
  pose proof (trusted_bad w0 S seize _ _ _ _ _ _ HI T_trusted Hs HA) as G. apply G. right. by exists (EOA n), x.
Qed.
Lemma flex_exec fuel ro s t v m w r w' : dinv w -> dcall s t v m -> no_spend s t v m -> exec adv fuel ro s t v m w = Ok (r, w') -> kept w w'.
Proof.
  intros HI HA HB H.
  destruct (direct_exec adv w0 S (controls_closed w0 T) seize seize_owner seize_disable seize_withdraw seize_admin no_zero
    (fun _ => True) no_spend kept) with (fuel := fuel) (ro := ro) (s := s) (t := t) (v := v) (m := m) (w := w) (r := r) (w' := w') as (_ & _ & G); try done.
  - apply no_spend_contract.
  - apply kept_refl.
  - apply kept_trans.
  - intros s1 t1 v1 w1 w2 _ _ Hm. unfold kept. by rewrite (balance_of_icx _ _ _ _ _ _ _ _ Hm).
  - exact flex_local.
Qed.
Lemma flex_tx fuel t r w' : first_call dcall t -> first_call no_spend t -> run_tx adv fuel t w0 = Ok (r, w') -> kept w0 w'.
Proof.
  intros HA HB H.
  destruct (direct_tx adv w0 S (controls_closed w0 T) seize seize_owner seize_disable seize_withdraw seize_admin no_zero
    (fun _ => True) no_spend kept) with (fuel := fuel) (t := t) (r := r) (w' := w') as (_ & _ & G); try done.
  - apply no_spend_contract.
  - apply kept_refl.
  - apply kept_trans.
  - intros s1 t1 v1 w1 w2 _ _ Hm. unfold kept. by rewrite (balance_of_icx _ _ _ _ _ _ _ _ Hm).
  - exact flex_local.
  - intros w n0 a i HI _ Ha Hf _. unfold kept. rewrite balance_of_upd, decide_False; [lia|].
    intros E. apply (trusted_exists _ _ _ _ HI T_trusted). by rewrite E.
Qed.
End flex.

(* ---- direct calls ---- *)
Lemma call_zero fuel ro s t v m w r w' k : kind_at w t = Some k -> is_contract t = true -> is_payable k m = false -> exec adv fuel ro s t v m w = Ok (r, w') -> v = 0.
Proof.
  intros HK Ht Hp H. destruct fuel as [|f]; [done|]. apply exec_inv in H as (w1 & H1 & _ & H); [|apply exec_keeps].
  destruct H as [(n1 & -> & _)|(sc & _ & Hsc & _ & Hpay & _)]; [done|].
  rewrite (move_icx_scores _ _ _ _ _ _ H1) in Hsc. unfold kind_at in HK. rewrite Hsc in HK. cbn in HK. injection HK as <-.
  destruct Hpay; congruence.
Qed.
Lemma no_such fuel s t v m w r w' k : kind_at w t = Some k -> is_contract t = true -> k <> KAdv -> is_payable k m = false ->
  (forall f c, exists e, honest_handler (exec adv f) k c m w = Err e) -> exec adv fuel false s t v m w <> Ok (r, w').
Proof.
  intros HK Ht Hk Hp He H. assert (v = 0) as -> by (by eapply call_zero). destruct fuel as [|f]; [done|]. apply kind_at_Some in HK as (sc & Hsc & K).
  destruct (proj1 (exec_honest_Ok adv f _ _ _ _ _ _ _ _ _ Ht Hsc K Hk) H) as [_ H'].
  destruct (He f (Ctx t s 0 (false || is_readonly m))) as [e E]. congruence.
Qed.
Lemma owner_direct f s t v m w r w' k : kind_at w t = Some k -> is_contract t = true -> k <> KAdv -> m = MAcceptOwnership \/ (exists a, m = MTransferOwnership a) ->
  exec adv f false s t v m w = Ok (r, w') -> forall X h, balance_of w' X h = balance_of w X h.
Proof.
  intros HK Ht Hk Hm H X h. assert (v = 0) as -> by (eapply call_zero; [exact HK|exact Ht| |exact H]; destruct Hm as [->|[a ->]]; by destruct k).
  destruct f as [|f]; [done|]. apply kind_at_Some in HK as (sc & Hsc & K).
  destruct (owned_kind k) eqn:Ho.
  - rewrite <- K in Ho. destruct Hm as [->|[a ->]].
    + destruct (proj1 (acceptOwnership_iff adv f s t w sc Ht Hsc _ _ Ho) H) as (_ & _ & ->).
      rewrite after_wupd, balance_of_upd. case_decide as E; [|done]. subst X. by rewrite (balance_of_sc _ _ _ _ Hsc).
    + destruct (proj1 (transferOwnership_iff adv f s t w sc Ht Hsc a _ _ Ho) H) as (_ & _ & ->).
      rewrite after_wupd, balance_of_upd. case_decide as E; [|done]. subst X. by rewrite (balance_of_sc _ _ _ _ Hsc).
  - exfalso. destruct (proj1 (exec_honest_Ok adv f _ _ _ _ _ _ _ _ _ Ht Hsc K Hk) H) as [_ H'].
    destruct k; try done. by destruct Hm as [->|[a ->]].
Qed.
Lemma forward_inv f s t v m w r w' : kind_at w t = Some KConv -> is_contract t = true ->
  m = MAcceptTokenOwnership \/ (exists a, m = MTransferTokenOwnership a) -> exec adv f false s t v m w = Ok (r, w') ->
  v = 0 /\ exists f' m' r', exec adv f' false t (token_of w t) 0 m' w = Ok (r', w') /\ (m' = MAcceptOwnership \/ exists a, m' = MTransferOwnership a).
Proof.
  intros HK Ht Hf H.
  assert (v = 0) as -> by (eapply call_zero; [exact HK|exact Ht| |exact H]; by destruct Hf as [->|[a ->]]).
  split; [done|]. destruct f as [|f]; [done|]. apply kind_at_Some in HK as (sc & Hsc & K).
  destruct (proj1 (exec_honest_Ok adv f _ _ _ _ _ _ _ _ _ Ht Hsc K ltac:(done)) H) as [_ H'].
  exists f. unfold token_of. rewrite (var_sc _ _ _ _ _ Hsc).
  destruct Hf as [->|[a ->]].
  - cbn -[World.exec] in H'; unfold done_, controller_forward, require_owner_only, ecall in H'; mrun H'; cbn [c_self c_sender c_ro] in *. assert (a1 = sc) as -> by congruence. do 2 eexists. split; [exact E0|eauto].
  - cbn -[World.exec] in H'; unfold done_, controller_forward, require_owner_only, ecall in H'; mrun H'; cbn [c_self c_sender c_ro] in *. assert (a2 = sc) as -> by congruence. do 2 eexists. split; [exact E0|eauto].
Qed.
(* only converters have the two token methods *)
Lemma forward_conv f s t v m w r w' k : kind_at w t = Some k -> is_contract t = true -> k <> KAdv ->
  m = MAcceptTokenOwnership \/ (exists a, m = MTransferTokenOwnership a) -> exec adv f false s t v m w = Ok (r, w') -> k = KConv.
Proof.
  intros HK Ht Hk Hf H.
  assert (v = 0) as -> by (eapply call_zero; [exact HK|exact Ht| |exact H]; destruct Hf as [->|[a ->]]; by destruct k).
  destruct f as [|f]; [done|]. apply kind_at_Some in HK as (sc & Hsc & K).
  destruct (proj1 (exec_honest_Ok adv f _ _ _ _ _ _ _ _ _ Ht Hsc K Hk) H) as [_ H'].
  destruct k; try done; by destruct Hf as [->|[a ->]].
Qed.
Lemma owner_call f s t v m w r w' k : kind_at w t = Some k -> is_contract t = true -> k <> KAdv ->
  (k = KConv -> exists k', kind_at w (token_of w t) = Some k' /\ k' <> KAdv /\ is_contract (token_of w t) = true) -> owner_method m = true ->
  exec adv f false s t v m w = Ok (r, w') -> forall X h, balance_of w' X h = balance_of w X h.
Proof.
  intros HK Ht Hk Hcv Hm H.
  assert ((m = MAcceptOwnership \/ exists a, m = MTransferOwnership a) \/ (m = MAcceptTokenOwnership \/ exists a, m = MTransferTokenOwnership a)) as [Hd|Hf].
  { destruct m; try done; eauto. }
  - by eapply owner_direct.
  - assert (k = KConv) as -> by (by eapply forward_conv). destruct (Hcv eq_refl) as (k' & Hk' & Ha' & Hc').
    eapply forward_inv in H as (_ & f' & m' & r' & G & Hm'); [|done..]. by eapply owner_direct.
Qed.

Definition kept_but (x : Z) (w w' : world) : Prop := balance_of w T (EOA n) - x <= balance_of w' T (EOA n).
Lemma spend_transfer fuel v to x d w r w' (P : world -> Prop) : is_token w T ->
  (forall w1, ledger_only w w1 -> P w1) ->
  (forall f r2 w1 w2, P w1 -> exec adv f false T to 0 (MTokenFallback (EOA n) x (default data_none d)) w1 = Ok (r2, w2) -> kept w1 w2) ->
  exec adv fuel false (EOA n) T v (MTransfer to x d) w = Ok (r, w') -> v = 0 /\ 0 <= x /\ kept_but x w w'.
Proof.
  intros HT HP HK H. apply C14_transfer_to_any in H as (-> & _ & Hx & _ & w1 & w2 & L & E & ->); [|done].
  split; [done|]. split; [lia|].
  assert (ledger_only w w1) as L1.
  { destruct L as (I & _ & L1 & (sc & b & L2 & L3) & _). split; [done|]. intros X. destruct (decide (X = T)) as [->|Hne].
    - rewrite L2, L3. apply ledger_diff_supply.
    - rewrite (L1 _ Hne). destruct (w_scores w !! X); [apply ledger_diff_refl|done]. }
  assert (kept w1 w2) as G.
  { destruct (is_contract to); [|subst; apply kept_refl]. destruct E as (f & r2 & E). eapply HK; [|exact E]. by apply HP. }
  destruct L as (_ & _ & _ & _ & L). specialize (L (EOA n)). unfold kept_but, kept in *. unfold balance_of at 2, var. cbn.
  change (balance_of w T (EOA n) - x <= balance_of w2 T (EOA n)). unfold at_ in L. repeat case_decide; try lia; done.
Qed.
Lemma spend_withdraw fuel v m x to w r w' : kind_at w T = Some KIcx -> is_contract T = true -> m = MWithdrawTo x to \/ m = MWithdraw x /\ to = EOA n ->
  exec adv fuel false (EOA n) T v m w = Ok (r, w') -> v = 0 /\ 0 <= x /\ kept_but x w w'.
Proof.
  intros HT Ht Hm H. eapply C17_withdraw_to_any in H as (-> & _ & Hx & w1 & w2 & f & r2 & L & E & ->); [|exact HT|exact Ht|exact Hm].
  split; [done|]. split; [lia|]. assert (kept w1 w2) as G.
  { eapply plain_exec; [|by apply no_spend_contract|exact E]. right. destruct L as (_ & _ & _ & (sc & b & L2 & L3) & _).
    unfold kind_at in *. by rewrite L3, L2 in *. }
  destruct L as (_ & _ & _ & _ & L). specialize (L (EOA n)). unfold kept_but, kept in *. unfold balance_of at 2, var. cbn.
  change (balance_of w T (EOA n) - x <= balance_of w2 T (EOA n)). unfold at_ in L. repeat case_decide; try lia; done.
Qed.
End loss.
