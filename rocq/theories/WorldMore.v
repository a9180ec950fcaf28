(* Further facts about single calls (C17, C20, C21, C24, C29-C32, C41) and the event log (C19). *)
From Coq Require Import String Ascii ZArith Lia.
From stdpp Require Import base countable list numbers strings gmap relations.
From Verif Require Import Res FormulaConsts FormulaModel Codec CodecProofs World WorldBasics WorldSteps WorldExec WorldSpec WorldInv WorldMoney WorldAuth WorldNet WorldCalls WorldViews WorldConv WorldHop WorldOwner WorldPath WorldCoins WorldTrade.
Local Open Scope Z_scope.
Local Open Scope M_scope.

Lemma ledger_change_upd w t sc b ds evs db : w_scores w !! t = Some sc ->
  (forall a, default 0 (b !! a) = balance_of w t a + db a) ->
  ledger_change t db ds evs w (after t (set_supply (s_supply sc + ds) (set_bal b sc)) evs w).
Proof.
  intros Hsc Hb. split; [done|]. split; [done|]. split; [|split].
  - intros X HX. cbn. by rewrite lookup_insert_ne.
  - exists sc, b. split; [done|]. cbn. rewrite lookup_insert, (supply_of_sc _ _ _ Hsc). done.
  - intros a. rewrite after_wupd, balance_of_upd, decide_True by done. exact (Hb a).
Qed.
Lemma ledger_change_one w t sc a x ds evs : w_scores w !! t = Some sc ->
  ledger_change t (at_ a x) ds evs w (after t (set_supply (s_supply sc + ds) (add_bal a x sc)) evs w).
Proof.
  intros Hsc. apply (ledger_change_upd w t sc _ ds evs _ Hsc). intros b. rewrite (balance_of_sc _ _ _ _ Hsc). unfold at_, balance.
  destruct (decide (b = a)) as [->|]; [by rewrite lookup_insert|]. rewrite lookup_insert_ne by done. lia.
Qed.
Lemma ledger_change_move w t sc a b x evs : w_scores w !! t = Some sc ->
  ledger_change t (fun c => at_ a (- x) c + at_ b x c) 0 evs w (after t (add_bal b x (add_bal a (- x) sc)) evs w).
Proof.
  intros Hsc. pose proof (ledger_change_upd w t sc (s_bal (add_bal b x (add_bal a (- x) sc))) 0 evs (fun c => at_ a (- x) c + at_ b x c) Hsc) as G.
  rewrite Z.add_0_r in G.
  replace (add_bal b x (add_bal a (- x) sc)) with (set_supply (s_supply sc) (set_bal (s_bal (add_bal b x (add_bal a (- x) sc))) sc)) by (by destruct sc).
  apply G. intros c. rewrite (balance_of_sc _ _ _ _ Hsc). change (default 0 (s_bal ?y !! c)) with (balance y c). rewrite !balance_add.
  unfold at_. repeat case_decide; lia.
Qed.

(* accounts and the zero address have no contract *)
Lemma no_eoa_reachable adv w : reachable adv w -> forall n, w_scores w !! EOA n = None.
Proof. intros Hr n. destruct (w_scores w !! EOA n) as [sc|] eqn:E; [|done]. destruct (scores_at _ _ _ _ Hr E) as (x & ? & _). done. Qed.
Lemma no_zero_reachable adv w : reachable adv w -> w_scores w !! zero_score = None.
Proof. intros Hr. destruct (w_scores w !! zero_score) as [sc|] eqn:E; [|done]. destruct (scores_at _ _ _ _ Hr E) as (x & E1 & E2). by injection E1 as <-. Qed.

(* only converters have managers *)
Lemma no_manager adv w X k : reachable adv w -> kind_at w X = Some k -> k <> KConv -> manager_of w X = None /\ pending_manager_of w X = None.
Proof.
  intros Hr HK Hk. apply kind_at_Some in HK as (sc & Hsc & K).
  unfold manager_of, pending_manager_of. rewrite !(var_sc _ _ _ _ _ Hsc).
  assert (s_kind sc <> KConv -> s_manager sc = None /\ s_new_manager sc = None) as G; [|apply G; congruence].
  refine (all_P_reachable adv (fun _ sc => s_kind sc <> KConv -> s_manager sc = None /\ s_new_manager sc = None) _ _ w Hr X sc Hsc).
  - intros k1 c m sc1 sc' evs _ Hs1 _ HP Hl. destruct Hl; try exact HP; cbn; congruence.
  - intros i n a _ _. by destruct i.
Qed.

Section more.
Variable adv : adversary.

(* ------------------------------------------------------------------- C24 ---- *)
Lemma owner_var_icx s t v w u w' X : move_icx s t v w = Ok (u, w') -> owner_of w' X = owner_of w X.
Proof. apply var_icx. Qed.
(* calls made by contracts do not make a user owner *)
Lemma owner_not_user fuel ro s t v m w r w' X n : is_contract s = true -> exec adv fuel ro s t v m w = Ok (r, w') ->
  owner_of w' X = EOA n -> owner_of w X = EOA n.
Proof.
  intros Hs H. refine (exec_ind adv (fun _ => True) (fun s _ _ _ => is_contract s = true) (fun w w' => owner_of w' X = EOA n -> owner_of w X = EOA n)
    _ _ _ _ _ _ _ fuel ro s t v m w r w' Hs I H); eauto.
  - intros s1 t1 v1 m1 w1 w2 _ _ Hm. by rewrite (owner_var_icx _ _ _ _ _ _ X Hm).
  - intros w1 k c m1 sc sc' evs HA _ _ Hsc _ _ _ Hl. unfold owner_of. rewrite var_upd. case_decide as E; [|done]. subst X.
    rewrite (var_sc _ _ _ _ _ Hsc). destruct Hl; cbn; try done. intros E; exfalso.
    match goal with H : c_sender c = s_new_owner sc |- _ => rewrite <- H in E end. rewrite E in HA. done.
Qed.

Ltac ownercheck H := unfold done_ in H; repeat (apply bind_Ok in H as (? & ? & H & _)); mrun H; by cbn in *; bools.
Lemma owner_only_inv fuel ro s t v m w r w' k : kind_at w t = Some k -> k <> KAdv -> owner_only m = true ->
  is_contract s = false \/ conv_at w t \/ (forall T to x, m <> MWithdrawTokens T to x) ->
  exec adv fuel ro s t v m w = Ok (r, w') -> s = owner_of w t.
Proof.
  intros HK Hk Hm Hside H. destruct fuel as [|f]; [done|].
  apply exec_inv in H as (w1 & H1 & _ & H); [|apply exec_keeps].
  rewrite <- (owner_var_icx _ _ _ _ _ _ t H1). pose proof (move_icx_scores _ _ _ _ _ _ H1) as S1.
  destruct H as [(n & -> & -> & _)|(sc & Ht & Hsc & _ & _ & H & _)]; [done|].
  assert (s_kind sc = k) as Ek. { rewrite S1 in Hsc. unfold kind_at in HK. rewrite Hsc in HK. cbn in HK. congruence. }
  rewrite Ek in H. specialize (H Hk). rewrite (owner_of_sc _ _ _ Hsc).
  assert (conv_at w t -> conv_at w1 t) as HC1. { unfold conv_at, kind_at, token_of, var. by rewrite S1. }
  assert ((k = KConv /\ exists T to x, m = MWithdrawTokens T to x) \/ ~ (k = KConv /\ exists T to x, m = MWithdrawTokens T to x)) as Hdec.
  { destruct (decide (k = KConv)) as [Ek'|]; [|by right; intros [? _]]. destruct m; try (right; by intros (_ & ? & ? & ? & ?)). left; eauto. }
  clear H1. destruct Hdec as [[-> (T & to & x & ->)]|Hn].
  { cbn -[conv_withdrawTokens] in H. unfold done_, conv_withdrawTokens in H.
    apply bind_Ok in H as (u & w2 & H & _). apply bind_Ok in H as (b & w3 & H3 & H).
    assert (owner_of w3 t = s -> s_owner sc = s) as Ho.
    { destruct Hside as [Hs|[HC|Hs]]; [|..|exfalso; by eapply Hs].
      - destruct s as [n|]; [|done]. unfold is_active in H3. apply bind_Ok in H3 as (sc3 & w4 & H4 & H3). apply this_Ok in H4 as [_ ->].
        apply bind_Ok in H3 as (r3 & w4 & H4 & H3). apply ret_Ok in H3 as [_ ->]. unfold ecall in H4. cbn in H4.
        intros E. rewrite <- (owner_of_sc _ _ _ Hsc). eapply owner_not_user; [|exact H4|exact E]. done.
      - apply is_active_inv in H3 as [_ ->]; [|by apply HC1]. by rewrite (owner_of_sc _ _ _ Hsc). }
    apply bind_Ok in H as (sc3 & w4 & H4 & H). apply this_Ok in H4 as [Hsc3 ->]. cbn in Hsc3.
    apply bind_Ok in H as (u3 & w4 & H4 & H). apply require_Ok in H4 as [_ ->].
    unfold withdrawTokens, require_owner_only in H. apply bind_Ok in H as (u4 & w5 & H & _). mrun H. cbn in *. bools. subst.
    symmetry. apply Ho. unfold owner_of, var. by rewrite Hsc0. }
  clear Hside HC1.
  destruct m; try discriminate Hm; destruct k; try done; cbn in H; try done; unfold done_ in H;
    try (exfalso; apply Hn; split; [done|]; by eauto).
  all: unfold transferOwnerShip, flex_issue, flex_disableTransfer, withdrawTokens, controller_forward, addConnector, updateConnector,
    disableConnectorPurchases, registerIcxToken, registerAddress, unregisterAddress, require_owner_only, require_positive_value in H.
  all: apply bind_Ok in H as (? & ? & H & _); try (apply bind_Ok in H as (u0 & w2 & H2 & H); apply bind_Ok in H as (? & ? & H & _); mrun H2; mrun H; cbn in *; scunify; bools; done).
  all: apply bind_Ok in H as (? & ? & H & _); mrun H; cbn in *; scunify; bools; done.
Qed.
Lemma manager_only_inv fuel ro s t v m w r w' : kind_at w t = Some KConv -> manager_only m = true ->
  exec adv fuel ro s t v m w = Ok (r, w') -> s = owner_of w t \/ manager_of w t = Some s.
Proof.
  intros HK Hm H. destruct fuel as [|f]; [done|].
  apply exec_inv in H as (w1 & H1 & _ & H); [|apply exec_keeps].
  pose proof (move_icx_scores _ _ _ _ _ _ H1) as S1.
  destruct H as [(n & -> & -> & _)|(sc & Ht & Hsc & _ & _ & H & _)]; [done|]. rewrite S1 in Hsc.
  assert (s_kind sc = KConv) as Ek. { unfold kind_at in HK. rewrite Hsc in HK. cbn in HK. congruence. }
  rewrite Ek in H. specialize (H ltac:(done)). rewrite <- S1 in Hsc.
  assert (owner_of w t = s_owner sc) as ->. { unfold owner_of, var. by rewrite <- S1, Hsc. }
  assert (manager_of w t = s_manager sc) as ->. { unfold manager_of, var. by rewrite <- S1, Hsc. }
  destruct m; try discriminate Hm; cbn in H; unfold done_, transferManagement, restoreRegistry, disableRegistryUpdate, disableConversions, setConversionFee, require_owner_or_manager_only in H.
  all: apply bind_Ok in H as (? & ? & H & _); apply bind_Ok in H as (? & ? & H & _); mrun H; cbn in *; scunify; apply orb_true_iff in Hreq as [Hreq|Hreq]; bools; auto.
Qed.

(* -------------------------------------------------------------- C20, C21 ---- *)
Lemma exec_transfer_inv fuel ro s t v to x d w r w' : is_token w t -> exec adv fuel ro s t v (MTransfer to x d) w = Ok (r, w') ->
  v = 0 /\ ro = false /\ is_contract t = true /\ 0 <= x <= balance_of w t s /\ (kind_at w t = Some KFlex -> transferable w t = true) /\
  (kind_at w t = Some KIcx -> to <> t) /\ r = RNone /\
  exists f sc r2 w2, fuel = S f /\ w_scores w !! t = Some sc /\
    let w1 := wupd t (add_bal to x (add_bal s (- x) sc)) [] w in
    (if is_contract to then exec adv f false t to 0 (MTokenFallback s x (default data_none d)) else ret RNone) w1 = Ok (r2, w2) /\
    w' = wlog t (EvTransfer s to x (default data_none d)) w2.
Proof.
  intros HT H. destruct (token_sc _ _ HT) as (sc & Hsc & Hk). destruct fuel as [|f]; [done|].
  pose proof H as H0. apply exec_inv in H as (w1 & H1 & Hro & H); [|apply exec_keeps].
  assert (w_scores w1 = w_scores w) as S1 by (by eapply move_icx_scores).
  destruct H as [(n & -> & ? & _)|(sc1 & Ht & Hsc1 & Hr & Hp & H & _)]; [done|]. rewrite S1, Hsc in Hsc1. injection Hsc1 as <-.
  assert (s_kind sc <> KAdv) as HnA by (by intros E; rewrite E in Hk).
  assert (v = 0) as ->. { destruct Hp as [Hp|?]; [|done]. by destruct (s_kind sc). }
  assert (ro = false) as ->. { destruct ro; [|done]. specialize (Hr HnA eq_refl). done. }
  destruct (proj1 (exec_honest_Ok adv f false s t _ w sc (s_kind sc) r w' Ht Hsc eq_refl HnA) H0) as [_ H']. clear H H0 H1.
  eapply token_transfer_inv in H'; [|done|exact Hsc]. cbn [c_self c_sender c_ro orb is_readonly] in H'.
  destruct H' as (A & B & C & D & r2 & w2 & E & F). rewrite (balance_of_sc _ _ _ _ Hsc).
  do 4 (split; [done|]). split; [intros G; unfold transferable; rewrite (var_sc _ _ _ _ _ Hsc); apply B; unfold kind_at in G; rewrite Hsc in G; cbn in G; congruence|].
  split; [intros G; apply C; unfold kind_at in G; rewrite Hsc in G; cbn in G; congruence|]. split; [done|].
  exists f, sc, r2, w2. done.
Qed.
Lemma transfer_receiver fuel ro s t v to x d w r w' : is_token w t -> is_contract to = true ->
  exec adv fuel ro s t v (MTransfer to x d) w = Ok (r, w') ->
  kind_at w to = Some KConv \/ kind_at w to = Some KNet \/ kind_at w to = Some KAdv.
Proof.
  intros HT Hto H. apply exec_transfer_inv in H as (_ & _ & _ & _ & _ & _ & _ & f & sc & r2 & w2 & -> & Hsc & H & _); [|done].
  rewrite Hto in H. set (w1 := wupd t _ [] w) in H.
  assert (kind_at w1 to = kind_at w to) as <-. { unfold w1, kind_at, wupd. cbn. destruct (decide (to = t)) as [->|]; [by rewrite lookup_insert, Hsc|by rewrite lookup_insert_ne]. }
  destruct f as [|f]; [done|]. apply exec_inv in H as (w3 & H1 & _ & H); [|apply exec_keeps].
  pose proof (move_icx_scores _ _ _ _ _ _ H1) as S1.
  destruct H as [(n & -> & ? & _)|(sc1 & _ & Hsc1 & _ & _ & H & _)]; [done|]. rewrite S1 in Hsc1. unfold kind_at. rewrite Hsc1. cbn.
  destruct (s_kind sc1) eqn:K; auto; specialize (H ltac:(done)); cbn in H; done.
Qed.

(* ------------------------------------------------------------------- C29 ---- *)
Lemma final_amount_spec fee v m : 0 <= fee <= 1000000 -> 0 <= v -> 0 <= m ->
  0 <= final_amount fee v m <= v /\
  final_amount fee v m * 1000000 ^ m <= v * (1000000 - fee) ^ m < (final_amount fee v m + 1) * 1000000 ^ m.
Proof.
  intros Hf Hv Hm. unfold final_amount. assert (0 < 1000000 ^ m) as Hp by (apply Z.pow_pos_nonneg; lia).
  assert (0 <= (1000000 - fee) ^ m <= 1000000 ^ m) as Hq. { split; [apply Z.pow_nonneg; lia|]. apply Z.pow_le_mono_l. lia. }
  pose proof (Z.div_mod (v * (1000000 - fee) ^ m) (1000000 ^ m) ltac:(lia)) as E.
  pose proof (Z.mod_pos_bound (v * (1000000 - fee) ^ m) (1000000 ^ m) Hp) as Hb.
  set (q := _ / _) in *. split; [|nia]. split.
  - apply Z.div_pos; [nia|done].
  - apply Z.div_le_upper_bound; [done|]. nia.
Qed.
Lemma final_amount_mono fee v v' m : 0 <= fee <= 1000000 -> 0 <= m -> v <= v' -> final_amount fee v m <= final_amount fee v' m.
Proof.
  intros Hf Hm Hv. unfold final_amount. assert (0 < 1000000 ^ m) as Hp by (apply Z.pow_pos_nonneg; lia).
  apply Z.div_le_mono; [done|]. apply Z.mul_le_mono_nonneg_r; [apply Z.pow_nonneg; lia|done].
Qed.
Lemma final_amount_fee_mono fee fee' v m : 0 <= fee <= fee' -> fee' <= 1000000 -> 0 <= v -> 0 <= m -> final_amount fee' v m <= final_amount fee v m.
Proof.
  intros Hf Hf' Hv Hm. unfold final_amount. assert (0 < 1000000 ^ m) as Hp by (apply Z.pow_pos_nonneg; lia).
  apply Z.div_le_mono; [done|]. apply Z.mul_le_mono_nonneg_l; [done|]. apply Z.pow_le_mono_l. lia.
Qed.
Lemma getFinalAmount_iff f ro s C v m w r w' : is_contract C = true -> kind_at w C = Some KConv -> 0 <= m ->
  exec adv (S f) ro s C 0 (MGetFinalAmount v m) w = Ok (r, w') <-> r = RInt (final_amount (fee_of w C) v m) /\ w' = w.
Proof.
  intros HC HK Hm. apply kind_at_Some in HK as (sc & Hsc & K).
  rewrite (exec_honest_Ok adv f ro s C _ w sc KConv r w' HC Hsc K ltac:(done)). rewrite (fee_of_sc _ _ _ Hsc).
  cbn -[getFinalAmount bind final_amount]. unfold getFinalAmount. split.
  - intros [_ H]. mrun H. cbn in *. scunify. done.
  - intros [-> ->]. split; [by right|]. mbuild.
Qed.

(* ------------------------------------------------------------------- C30 ---- *)
Lemma addConnector_iff f s C t weight ve w sc r w' : conv_at w C -> w_scores w !! C = Some sc ->
  exec adv (S (S f)) false s C 0 (MAddConnector t weight ve) w = Ok (r, w') <->
  (s = owner_of w C /\ ~ active w C /\ t <> zero_score /\ t <> C /\ 0 < weight <= 1000000 /\ t <> token_of w C /\
   ~ is_connector w C t /\ total_weight_of w C + weight <= 1000000) /\ r = RNone /\
  w' = after C (set_total_weight (total_weight_of w C + weight) (set_conn_tokens (connectors_of w C ++ [t])
                  (set_conn t (Connector 0 weight ve true true) sc))) [] w.
Proof.
  intros HC Hsc. destruct HC as (HC1 & HC2 & HC3 & HC4). pose proof (conj HC1 (conj HC2 (conj HC3 HC4)) : conv_at w C) as HC.
  assert (s_kind sc = KConv) as K. { unfold kind_at in HC2. rewrite Hsc in HC2. cbn in HC2. congruence. }
  rewrite (exec_honest_Ok adv (S f) false s C _ w sc KConv r w' HC1 Hsc K ltac:(done)).
  rewrite (owner_of_sc _ _ _ Hsc), (token_of_sc _ _ _ Hsc). unfold is_connector. rewrite (connector_of_sc _ _ _ _ Hsc).
  unfold total_weight_of, connectors_of. rewrite !(var_sc _ _ _ _ _ Hsc).
  cbn -[addConnector exec]. unfold done_, addConnector, require_inactive. unreq. split.
  - intros [_ H]. apply bind_Ok in H as (u & w1 & H & H'). apply ret_Ok in H' as [-> ->].
    apply bind_Ok in H as (u0 & w2 & H0 & H). mrun H0. cbn -[exec] in *. scunify. bools. subst s.
    apply bind_Ok in H as (u1 & w2 & H1 & H). apply bind_Ok in H1 as (b & w3 & H2 & H1).
    apply is_active_inv in H2 as [-> ->]; [|done]. apply require_Ok in H1 as [Ha ->]. cbn in Ha. apply negb_true_iff, bool_decide_eq_false in Ha.
    mgo H. split; [|done]. rewrite Bool.not_true_iff_false. repeat split; try done; try lia.
  - intros ((-> & Ha & Hz & HtC & Hw & HtF & Hs & Htot) & -> & ->). split; [by left|].
    apply Bool.not_true_iff_false in Hs.
    apply bind_Ok. exists tt. eexists. split; [|reflexivity].
    apply bind_Ok. exists tt, w. split; [mbuild|].
    apply bind_Ok. exists tt, w. split.
    { apply bind_Ok. exists (bool_decide (active w C)), w. split; [apply is_active_ok; done|]. rewrite bool_decide_eq_false_2 by done. done. }
    eapply Ok_world; [mbuild; by rewrite Hs|]. cbn [c_self]. rewrite ?wput_wput. done.
Qed.

(* ------------------------------------------------------------------- C31 ---- *)
Lemma addConnector_inactive f ro s C t weight ve w r w' : conv_at w C ->
  exec adv f ro s C 0 (MAddConnector t weight ve) w = Ok (r, w') -> ~ active w C.
Proof.
  intros HC H. pose proof HC as (HC1 & HC2 & HC3 & HC4). apply kind_at_Some in HC2 as (sc & Hsc & K). destruct f as [|f]; [done|].
  destruct (proj1 (exec_honest_Ok adv f ro s C _ w sc KConv r w' HC1 Hsc K ltac:(done)) H) as [_ H']. clear H.
  cbn -[addConnector exec] in H'. unfold done_, addConnector, require_inactive in H'.
  apply bind_Ok in H' as (u & w1 & H & _). apply bind_Ok in H as (u0 & w2 & H0 & H). unfold require_owner_only in H0. mrun H0. cbn -[exec] in *. scunify. bools.
  apply bind_Ok in H as (u1 & w9 & H1 & H). apply bind_Ok in H1 as (b & w8 & H2 & H1).
  apply is_active_inv in H2 as [-> ->]; [|done]. apply require_Ok in H1 as [Ha _]. cbn in Ha. by apply negb_true_iff, bool_decide_eq_false in Ha.
Qed.

Lemma conv_withdraw_inv fuel ro s C v t to x w r w' : conv_at w C -> exec adv fuel ro s C v (MWithdrawTokens t to x) w = Ok (r, w') ->
  active w C -> ~ is_connector w C t.
Proof.
  intros HC H Ha Hcn. destruct fuel as [|f]; [done|]. destruct (conv_sc _ _ HC) as (sc & Hsc & K).
  apply exec_inv in H as (w1 & H1 & _ & H); [|apply exec_keeps]. pose proof (move_icx_scores _ _ _ _ _ _ H1) as S1.
  destruct H as [(n & -> & ? & _)|(sc1 & _ & Hsc1 & _ & _ & H & _)]; [done|]. rewrite S1, Hsc in Hsc1. injection Hsc1 as <-.
  rewrite K in H. specialize (H ltac:(done)). cbn -[conv_withdrawTokens] in H. unfold done_, conv_withdrawTokens in H.
  apply bind_Ok in H as (u & w2 & H & _). apply bind_Ok in H as (b & w3 & H3 & H).
  apply is_active_inv in H3 as [-> ->]; [|cbn; unfold conv_at, kind_at, token_of, var in *; by rewrite S1].
  apply bind_Ok in H as (sc3 & w4 & H4 & H). apply this_Ok in H4 as [Hsc3 ->]. cbn in Hsc3. rewrite S1, Hsc in Hsc3. injection Hsc3 as <-.
  apply bind_Ok in H as (u3 & w4 & H4 & H). apply require_Ok in H4 as [H4 _].
  unfold is_connector in Hcn. rewrite (connector_of_sc _ _ _ _ Hsc) in Hcn. rewrite Hcn in H4.
  rewrite bool_decide_eq_true_2 in H4; [done|]. cbn. unfold active, owner_of, token_of, var in *. by rewrite S1.
Qed.

(* ------------------------------------------------------------------- C41 ---- *)
Lemma updateRegistry_iff f s C w sc r w' : is_contract C = true -> w_scores w !! C = Some sc -> s_kind sc = KConv ->
  is_contract (registry_of w C) = true -> kind_at w (registry_of w C) = Some KReg ->
  exec adv (S (S f)) false s C 0 MUpdateRegistry w = Ok (r, w') <->
  let new := registered w (registry_of w C) "ScoreRegistry" in
  ((registry_updates_allowed w C = true \/ s = owner_of w C) /\ new <> zero_score /\ new <> registry_of w C) /\ r = RNone /\
  w' = after C (set_registry new (set_prev_registry (registry_of w C) sc)) [] w.
Proof.
  intros HC Hsc K HR1 HR2. cbv zeta.
  rewrite (exec_honest_Ok adv (S f) false s C _ w sc KConv r w' HC Hsc K ltac:(done)).
  pose proof (reg_answers adv w _ HR1 HR2 "ScoreRegistry"%string) as Hans.
  unfold registry_updates_allowed in *. rewrite (owner_of_sc _ _ _ Hsc), (var_sc _ _ _ _ _ Hsc).
  assert (registry_of w C = s_registry sc) as Er by (apply var_sc; done). rewrite Er in *.
  cbn -[updateRegistry exec]. unfold done_, updateRegistry. unreq. split.
  - intros [_ H]. apply bind_Ok in H as (u & w1 & H & H'). apply ret_Ok in H' as [-> ->].
    apply bind_Ok in H as (sc0 & w2 & H0 & H). mrun H0. cbn -[exec] in *. scunify.
    apply bind_Ok in H as (u0 & w2 & H0 & H). apply require_Ok in H0 as [H0 ->].
    assert (s_allow_reg sc = true \/ s = s_owner sc) as Hor by (apply orb_true_iff in H0 as [?|?]; bools; auto). clear H0.
    apply bind_Ok in H as (r0 & w2 & H1 & H). apply (answers_inv adv _ _ _ _ _ _ _ _ _ Hans) in H1 as [-> ->].
    apply bind_Ok in H as (new & w2 & H1 & H). change (ret (registered w (s_registry sc) "ScoreRegistry") w = Ok (new, w2)) in H1. apply ret_Ok in H1 as [-> ->].
    clear Hans. mgo H. rewrite ?wput_wput. done.
  - intros ((Ho & Hz & Hn) & -> & ->). split; [by left|].
    assert (s_allow_reg sc || bool_decide (s = s_owner sc) = true) as Ho'.
    { apply orb_true_iff. destruct Ho; [by left|right; by apply bool_decide_eq_true]. }
    apply bind_Ok. exists tt. eexists. split; [|reflexivity].
    apply bind_Ok. exists sc, w. split; [by apply this_Ok|].
    apply bind_Ok. exists tt, w. split; [by apply (require_Ok _ _ _ tt)|].
    apply bind_Ok. eexists _, w. split; [apply Hans|].
    eapply Ok_world; [cbn [as_addr]; mbuild|]. cbn [c_self]. rewrite ?wput_wput. done.
Qed.
End more.
(* ------------------------------------------------------------------- C25 ---- *)
(* a contract owned by a user, with nobody nominated: calls made by contracts do not change that *)
Definition settled (X : addr) (n : N) (w : world) : Prop :=
  owner_of w X = EOA n /\ pending_owner_of w X = zero_score /\ manager_of w X = None /\ pending_manager_of w X = None /\
  w_scores w !! zero_score = None.
Lemma settled_exec adv fuel ro s t v m w r w' X n : is_contract s = true -> s <> zero_score -> settled X n w ->
  exec adv fuel ro s t v m w = Ok (r, w') -> settled X n w'.
Proof.
  intros Hs Hz HI H. refine (exec_ind adv (settled X n) (fun s _ _ _ => is_contract s = true /\ s <> zero_score) (fun w w' => settled X n w -> settled X n w')
    _ _ _ _ _ _ _ fuel ro s t v m w r w' (conj Hs Hz) HI H HI); eauto.
  - intros s1 t1 v1 m1 w1 w2 _ _ Hm. unfold settled, owner_of, pending_owner_of, manager_of, pending_manager_of.
    rewrite !(var_icx _ _ _ _ _ _ _ _ _ Hm), (move_icx_scores _ _ _ _ _ _ Hm). done.
  - intros w1 k c m1 sc sc' evs [HA1 HA2] _ Hc Hsc _ _ _ Hl (H1 & H2 & H3 & H4 & H5).
    unfold settled, owner_of, pending_owner_of, manager_of, pending_manager_of. rewrite !var_upd.
    assert (w_scores (wupd (c_self c) sc' evs w1) !! zero_score = None) as ->.
    { unfold wupd. cbn. rewrite lookup_insert_ne; [done|]. congruence. }
    case_decide as E; [|done]. subst X. revert H1 H2 H3 H4. unfold owner_of, pending_owner_of, manager_of, pending_manager_of. rewrite !(var_sc _ _ _ _ _ Hsc).
    intros H1 H2 H3 H4. destruct Hl; cbn in *; try done; exfalso.
    all: repeat match goal with H : _ \/ _ |- _ => destruct H end; try congruence.
    all: rewrite H7, H1 in HA1; done.
  - intros w1 k c m1 sc to v1 m' _ (_ & _ & _ & _ & H5) Hc Hsc _ _. split; [done|]. congruence.
  - intros w1 a sc to v1 m1 (_ & _ & _ & _ & H5) Hc Hsc _. split; [done|]. congruence.
Qed.
Lemma deployed_manager adv fuel n a token registry max_fee connector weight w r w' : reachable adv w ->
  run_tx adv fuel (TDeploy n a (IConv token registry max_fee connector weight)) w = Ok (r, w') ->
  kind_at w' (SCORE a) = Some KConv /\ owner_of w' (SCORE a) = EOA n /\ manager_of w' (SCORE a) = None.
Proof.
  intros Hr H. apply deploy_inv in H as (Ha & Hn & _ & H). set (sc0 := (init_score _ _ _).1) in *. set (ev0 := (init_score _ _ _).2) in *.
  set (w1 := wupd (SCORE a) sc0 ev0 w) in *. cbv zeta in H.
  assert (w_scores w1 !! SCORE a = Some sc0) as E1 by apply lookup_insert.
  assert (settled (SCORE a) n w1) as HS.
  { unfold settled, owner_of, pending_owner_of, manager_of, pending_manager_of. rewrite !(var_sc _ _ _ _ _ E1). repeat split.
    unfold w1, wupd. cbn. rewrite lookup_insert_ne; [by apply (no_zero_reachable adv)|]. intros [=]. by subst. }
  enough (kind_at w' (SCORE a) = Some KConv /\ settled (SCORE a) n w') as (? & ? & _ & ? & _) by done.
  assert (kind_at w1 (SCORE a) = Some KConv) as HK by (unfold kind_at; rewrite E1; done).
  destruct H as [->|(t & reg & f & cn & wt & E & Hz & H)]; [done|].
  refine (esteps_rel adv fuel KConv (Ctx (SCORE a) (EOA n) 0 false) (MAddConnector cn wt false) (fun w w' => kind_at w (SCORE a) = Some KConv /\ settled (SCORE a) n w -> kind_at w' (SCORE a) = Some KConv /\ settled (SCORE a) n w') _ _ _ _
    w1 w' sc0 E1 eq_refl H (conj HK HS)); eauto.
  - intros w2 sc sc' evs Hsc Hk Hl (HK2 & H1 & H2 & H3 & H4 & H5). cbn in *. split.
    + unfold kind_at, wupd. cbn. rewrite lookup_insert. cbn. rewrite (lstep_kind _ _ _ _ _ _ Hl). congruence.
    + unfold settled, owner_of, pending_owner_of, manager_of, pending_manager_of. rewrite !var_upd, !decide_True by done.
      revert H1 H2 H3 H4. unfold owner_of, pending_owner_of, manager_of, pending_manager_of. rewrite !(var_sc _ _ _ _ _ Hsc). intros H1 H2 H3 H4.
      assert (w_scores (wupd (SCORE a) sc' evs w2) !! zero_score = None) as ->.
      { unfold wupd. cbn. rewrite lookup_insert_ne; [done|]. intros [=]. by subst. }
      destruct Hl; cbn in *; try congruence; done.
  - intros ro w2 w3 sc to v m' r' Hsc Hk _ _ Hx [HK2 HS2]. split; [by eapply exec_kind_at|]. eapply settled_exec; [| |exact HS2|exact Hx]; [done|].
    cbn. intros [=]. by subst.
Qed.
