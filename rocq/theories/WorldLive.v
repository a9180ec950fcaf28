(* Calls that must succeed: conversions and funding of converters. *)
From Coq Require Import String Ascii ZArith Lia.
From stdpp Require Import base countable list numbers strings gmap relations.
From Verif Require Import Res FormulaModel FormulaQuotes Codec World WorldBasics WorldSteps WorldExec WorldSpec WorldInv WorldMoney WorldAuth WorldNet WorldCalls WorldViews
  WorldConv WorldHop WorldPath WorldTrade WorldMore.
Local Open Scope Z_scope.

Section live.
Variable adv : adversary.

Lemma movable_sc w T sc : w_scores w !! T = Some sc -> movable w T <-> (s_kind sc = KFlex -> s_transferable sc = true).
Proof. intros H. unfold movable, kind_at, transferable, var. rewrite H. cbn. split; [intros G E; apply G; congruence|intros G [=]; auto]. Qed.

(* a transfer of a genuine token succeeds if the receiver accepts it *)
Lemma transfer_ok f s T to x d w sc r2 w2 : token_at w T -> w_scores w !! T = Some sc -> 0 <= x <= balance_of w T s -> movable w T ->
  (kind_at w T = Some KIcx -> to <> T) ->
  (if is_contract to then exec adv f false T to 0 (MTokenFallback s x (default data_none d)) else ret RNone)
     (wupd T (add_bal to x (add_bal s (- x) sc)) [] w) = Ok (r2, w2) ->
  exec adv (S f) false s T 0 (MTransfer to x d) w = Ok (RNone, wlog T (EvTransfer s to x (default data_none d)) w2).
Proof.
  intros [HT1 HT2] Hsc Hx Hm Hi H. destruct (token_sc _ _ HT2) as (sc' & Hsc' & Hk). rewrite Hsc in Hsc'. injection Hsc' as <-.
  rewrite (balance_of_sc _ _ _ _ Hsc) in Hx. pose proof (proj1 (movable_sc _ _ _ Hsc) Hm) as Hm2. clear Hm. rename Hm2 into Hm. unfold kind_at in Hi. rewrite Hsc in Hi. cbn in Hi.
  apply (exec_honest_Ok adv f false s T _ w sc (s_kind sc)); [done|done|done|by intros E; rewrite E in Hk|]. split; [by left|].
  cbn [orb is_readonly].
  assert (forall c, c_self c = T -> c_sender c = s -> c_ro c = false ->
    irc_transfer (exec adv f) c to x d w = Ok (tt, wlog T (EvTransfer s to x (default data_none d)) w2)) as Hi2.
  { intros c <- <- Hro. unfold irc_transfer, irc_transfer_.
    apply bind_Ok. exists tt, w. split; [apply require_Ok; split; [|done]; destruct (Z.ltb_spec x 0); lia || done|].
    apply bind_Ok. exists sc, w. split; [by apply this_Ok|].
    apply bind_Ok. exists tt, w. split; [apply require_Ok; split; [|done]; destruct (Z.ltb_spec (balance sc (c_sender c)) x); lia || done|].
    apply bind_Ok. eexists tt, _. split; [apply modify_Ok; eexists; split; [exact Hsc|reflexivity]|].
    apply bind_Ok. eexists tt, _. split; [apply modify_Ok; eexists; split; [apply lookup_insert|reflexivity]|].
    apply bind_Ok. exists r2, w2. split; [|by apply emit_Ok]. rewrite wput_wput. unfold ecall. rewrite Hro.
    destruct (is_contract to); exact H. }
  assert (exists k, s_kind sc = k) as [k Ek] by eauto. rewrite Ek in *. destruct k; try discriminate Hk; cbn -[irc_transfer].
  - unfold done_. apply bind_Ok. exists tt. eexists. split; [by apply Hi2|]. by apply ret_Ok.
  - unfold done_, icx_transferTo, require_not_this. apply bind_Ok. exists tt. eexists. split; [|by apply ret_Ok].
    apply bind_Ok. exists tt, w. split; [apply require_Ok; split; [|done]; apply bool_decide_eq_true; cbn; intros E; by apply Hi|by apply Hi2].
  - unfold done_, flex_transfer. apply bind_Ok. exists tt. eexists. split; [|by apply ret_Ok].
    apply bind_Ok. exists sc, w. split; [by apply this_Ok|]. apply bind_Ok. exists tt, w. split; [apply require_Ok; split; [by apply Hm|done]|by apply Hi2].
Qed.

Lemma pay_ok f s T N x w : token_at w T -> is_contract N = true -> kind_at w N = Some KNet -> N <> T -> 0 <= x <= balance_of w T s -> movable w T ->
  exists w', exec adv (S (S f)) false s T 0 (MTransfer N x (Some data_result)) w = Ok (RNone, w').
Proof.
  intros HT HN1 HN2 Hne Hx Hm. destruct (token_sc _ _ (proj2 HT)) as (sc & Hsc & Hk). eexists. eapply (transfer_ok _ _ _ _ _ _ _ sc RNone _ HT Hsc Hx Hm); [done|].
  rewrite HN1. cbn [default]. set (w1 := wupd T _ [] w).
  apply kind_at_Some in HN2 as (scN & HscN & KN).
  assert (w_scores w1 !! N = Some scN) as HscN1. { unfold w1, wupd. cbn. by rewrite lookup_insert_ne. }
  apply (exec_honest_Ok adv _ _ _ _ _ _ _ _ _ _ HN1 HscN1 KN ltac:(done)). split; [by left|].
  cbn -[net_tokenFallback]. unfold done_, net_tokenFallback. apply bind_Ok. exists tt, w1. split; [|by apply ret_Ok].
  rewrite bool_decide_true by done. by apply ret_Ok.
Qed.
Lemma issue_ok f s T to x w : is_contract T = true -> kind_at w T = Some KFlex -> 0 < x -> owner_of w T = s -> to <> zero_score -> to <> T ->
  exists w', exec adv (S f) false s T 0 (MIssue to x) w = Ok (RNone, w').
Proof.
  intros HT1 HT2 Hx Ho H1 H2. apply kind_at_Some in HT2 as (sc & Hsc & K). rewrite (owner_of_sc _ _ _ Hsc) in Ho.
  eexists. by apply (issue_iff adv f s T w sc HT1 Hsc).
Qed.
Lemma burn_ok f s T a x w : is_contract T = true -> kind_at w T = Some KFlex -> 0 < x <= balance_of w T a -> owner_of w T = s \/ s = a ->
  exists w', exec adv (S f) false s T 0 (MDestroy a x) w = Ok (RNone, w').
Proof.
  intros HT1 HT2 Hx Ho. apply kind_at_Some in HT2 as (sc & Hsc & K). rewrite (owner_of_sc _ _ _ Hsc) in Ho. rewrite (balance_of_sc _ _ _ _ Hsc) in Hx.
  eexists. apply (destroy_iff adv f s T w sc HT1 Hsc); [done|]. split; [|done]. split; [done|]. destruct Ho; auto.
Qed.
Lemma price_ok f c t s w : conv_at w (c_self c) -> token_at w t -> is_connector w (c_self c) t ->
  exists w', price_data_update (exec adv (S f)) c t s w = Ok (tt, w').
Proof.
  intros HC Ht Hs. destruct (conv_sc _ _ HC) as (sc & Hsc & K). eexists. unfold price_data_update.
  apply bind_Ok. eexists _, _. split; [by apply connector_balance_ok|].
  apply bind_Ok. exists sc, w. split; [by apply this_Ok|]. by apply emit_Ok.
Qed.

Lemma ledger_connector w w' db ds dv evs C t : eff w w' db ds dv evs -> is_connector w C t -> is_connector w' C t.
Proof. intros E. unfold is_connector. by rewrite (eff_conn _ _ _ _ _ _ E). Qed.

Lemma buy_ok f c w N t v min x fee : conv_at w (c_self c) -> token_at w t -> is_contract N = true -> N <> zero_score -> kind_at w N = Some KNet -> c_ro c = false ->
  let C := c_self c in let F := token_of w C in
  active w C -> is_connector w C t -> cn_penabled (connector_of w C t) = true ->
  purchase_quote w C t v v = Some (x, fee) -> min <= x -> 0 < x ->
  exists w', buy (exec adv (S f)) c N t v min w = Ok (x, w').
Proof.
  intros HC Ht HN1 HNz HN2 Hro C F Ha Hs Hp Hq Hm Hx. destruct (conv_sc _ _ HC) as (sc & Hsc & K). destruct HC as (HC1 & HC2 & HF1 & HF2).
  fold C F in HC1, HC2, HF1, HF2. assert (conv_at w C) as HC by done.
  assert (exists w1 u1, (if cn_venabled (conn sc t) then modify c (set_virtual t (cn_virtual (conn sc t) + v)) else ret tt) w = Ok (u1, w1) /\
     eff w w1 zero2 zero1 (credit C t (if cn_venabled (conn sc t) then v else 0)) []) as (w1 & u1 & H1 & E1).
  { destruct (cn_venabled (conn sc t)).
    - exists (wput C (set_virtual t (cn_virtual (conn sc t) + v) sc) w), tt. split; [apply modify_Ok; by exists sc|].
      eapply eff_ext; [exact (eff_virtual w C sc t (cn_virtual (conn sc t) + v) Hsc)|done|done| |done]. intros X b. unfold credit. repeat case_decide; lia.
    - exists w, tt. split; [by apply ret_Ok|]. eapply eff_ext; [apply eff_refl|done|done| |done]. intros X b. unfold credit, zero2. by repeat case_decide. }
  pose proof (eff_ledger _ _ _ _ _ _ E1) as L1.
  assert (conv_at w1 C) as HC' by (by eapply ledger_conv). destruct (conv_sc _ _ HC') as (sc1 & Hsc1 & K1).
  assert (s_token sc1 = F) as EF. { rewrite <- (token_of_sc _ _ _ Hsc1). by apply ledger_token. }
  destruct (issue_ok f C F N x w1) as (w2 & H2); [done|by rewrite (ledger_kind _ _ _ L1)|done|by rewrite (ledger_owner _ _ _ L1)|done|intros ->; congruence|].
  pose proof H2 as H2'. apply issue_inv in H2' as (_ & _ & E2); [|done|by rewrite (ledger_kind _ _ _ L1)].
  pose proof (eff_trans _ _ _ _ _ _ _ _ _ _ _ (eff_trans _ _ _ _ _ _ _ _ _ _ _ E1 E2) (eff_log1 w2 C (EvConversion t F N v x fee))) as E3. clear E1 E2.
  set (w3 := wlog C _ w2) in *. pose proof (eff_ledger _ _ _ _ _ _ E3) as L3.
  destruct (price_ok f c t (supply_of w3 (token_of w3 C)) w3) as (w4 & H4); [by eapply ledger_conv|by eapply ledger_token_at|by eapply ledger_connector|].
  exists w4. unfold buy.
  apply bind_Ok. eexists (x, fee), w. split; [by apply purchase_ok|].
  apply bind_Ok. exists tt, w. split; [apply require_Ok; split; [by apply Z.leb_le|done]|].
  apply bind_Ok. exists sc, w. split; [by apply this_Ok|].
  apply bind_Ok. exists u1, w1. split; [exact H1|].
  apply bind_Ok. exists sc1, w1. split; [by apply this_Ok|]. rewrite EF.
  apply bind_Ok. eexists _, w2. split; [unfold ecall; rewrite Hro; exact H2|].
  apply bind_Ok. exists tt, w3. split; [by apply emit_Ok|].
  apply bind_Ok. eexists _, w3. split; [apply token_supply_ok; by eapply ledger_conv|].
  apply bind_Ok. exists tt, w4. split; [exact H4|by apply ret_Ok].
Qed.

Lemma lower_virtual c sc t x w : w_scores w !! c_self c = Some sc -> (cn_venabled (conn sc t) = true -> x <= cn_virtual (conn sc t)) ->
  exists w1 u1, (if cn_venabled (conn sc t) then bind (safe_sub (cn_virtual (conn sc t)) x) (fun v => modify c (set_virtual t v)) else ret tt) w = Ok (u1, w1) /\
    eff w w1 zero2 zero1 (credit (c_self c) t (if cn_venabled (conn sc t) then - x else 0)) [].
Proof.
  intros Hsc Hle. destruct (cn_venabled (conn sc t)) eqn:Ev.
  - exists (wput (c_self c) (set_virtual t (cn_virtual (conn sc t) - x) sc) w), tt. split.
    + apply bind_Ok. exists (cn_virtual (conn sc t) - x), w. split; [by apply safe_sub_Ok; auto|]. apply modify_Ok. by exists sc.
    + eapply eff_ext; [exact (eff_virtual w _ sc t (cn_virtual (conn sc t) - x) Hsc)|done|done| |done]. intros X b. unfold credit. repeat case_decide; lia.
  - exists w, tt. split; [by apply ret_Ok|]. eapply eff_ext; [apply eff_refl|done|done| |done]. intros X b. unfold credit, zero2. by repeat case_decide.
Qed.

Lemma sell_ok f c w N t v min x fee : conv_at w (c_self c) -> token_at w t -> t <> token_of w (c_self c) ->
  is_contract N = true -> kind_at w N = Some KNet -> c_ro c = false ->
  let C := c_self c in let F := token_of w C in
  active w C -> is_connector w C t -> sale_quote w C t v = Some (x, fee) -> min <= x -> 0 < v <= balance_of w F C -> 0 <= x <= balance_of w t C -> movable w t ->
  (x < reserve w C t \/ x = reserve w C t /\ v = supply_of w F) ->
  exists w', sell (exec adv (S (S f))) c N t v min w = Ok (x, w').
Proof.
  intros HC Ht HtF HN1 HN2 Hro C F Ha Hs Hq Hm Hv Hx Hmv Hdep. destruct (conv_sc _ _ HC) as (sc & Hsc & K). destruct HC as (HC1 & HC2 & HF1 & HF2).
  fold C F in HC1, HC2, HF1, HF2. assert (conv_at w C) as HC by done.
  destruct (lower_virtual c sc t x w Hsc) as (w1 & u1 & H1 & E1).
  { intros Ev. unfold reserve in Hdep. rewrite (connector_of_sc _ _ _ _ Hsc), Ev in Hdep. lia. }
  fold C in E1. pose proof (eff_ledger _ _ _ _ _ _ E1) as L1.
  assert (conv_at w1 C) as HC' by (by eapply ledger_conv). destruct (conv_sc _ _ HC') as (sc1 & Hsc1 & K1).
  assert (s_token sc1 = F) as EF. { rewrite <- (token_of_sc _ _ _ Hsc1). by apply ledger_token. }
  destruct (burn_ok (S f) C F C v w1) as (w2 & H2); [done|by rewrite (ledger_kind _ _ _ L1)|rewrite (eff_bal _ _ _ _ _ _ E1); unfold zero2; lia|by right|].
  pose proof H2 as H2'. apply burn_inv in H2' as (_ & E2); [|done|by rewrite (ledger_kind _ _ _ L1)].
  pose proof (eff_trans _ _ _ _ _ _ _ _ _ _ _ E1 E2) as E12. clear E1 E2. pose proof (eff_ledger _ _ _ _ _ _ E12) as L2.
  destruct (pay_ok f C t N x w2) as (w3 & H3); [by eapply ledger_token_at|done|by rewrite (ledger_kind _ _ _ L2)|by eapply net_not_token| |by apply (ledger_movable _ _ _ L2)|].
  { rewrite (eff_bal _ _ _ _ _ _ E12). unfold zero2, credit. rewrite (decide_False (P := t = _)) by done. fold C in Hx. lia. }
  pose proof H3 as H3'. apply pay_inv in H3' as (_ & _ & E3); [|by eapply ledger_token_at|done|by rewrite (ledger_kind _ _ _ L2)|by eapply net_not_token].
  pose proof (eff_trans _ _ _ _ _ _ _ _ _ _ _ (eff_trans _ _ _ _ _ _ _ _ _ _ _ E12 E3) (eff_log1 w3 C (EvConversion F t N v x fee))) as E4. clear E12 E3.
  set (w4 := wlog C _ w3) in *. pose proof (eff_ledger _ _ _ _ _ _ E4) as L4.
  destruct (price_ok (S f) c t (supply_of w4 (token_of w4 C)) w4) as (w5 & H5); [by eapply ledger_conv|by eapply ledger_token_at|by eapply ledger_connector|].
  exists w5. unfold sell.
  apply bind_Ok. eexists (x, fee), w. split; [by apply sale_ok|].
  apply bind_Ok. exists tt, w. split; [apply require_Ok; split; [by apply Z.leb_le|done]|].
  apply bind_Ok. eexists _, w. split; [by apply token_supply_ok|].
  apply bind_Ok. eexists _, w. split; [by apply connector_balance_ok|].
  apply bind_Ok. exists tt, w. split.
  { apply require_Ok. split; [|done]. apply orb_true_iff. destruct Hdep as [?|[-> ->]]; [left; by apply Z.ltb_lt|right]. apply andb_true_iff. split; by apply Z.eqb_eq. }
  apply bind_Ok. exists sc, w. split; [by apply this_Ok|].
  apply bind_Ok. exists u1, w1. split; [exact H1|].
  apply bind_Ok. exists sc1, w1. split; [by apply this_Ok|]. rewrite EF.
  apply bind_Ok. eexists _, w2. split; [unfold ecall; rewrite Hro; exact H2|].
  apply bind_Ok. eexists _, w3. split; [unfold ecall; rewrite Hro; exact H3|].
  apply bind_Ok. exists tt, w4. split; [by apply emit_Ok|].
  apply bind_Ok. eexists _, w4. split; [apply token_supply_ok; by eapply ledger_conv|].
  apply bind_Ok. exists tt, w5. split; [exact H5|by apply ret_Ok].
Qed.

Lemma convert_cross_ok f c w N from t v min x fee : conv_at w (c_self c) -> token_at w from -> token_at w t -> from <> t ->
  is_contract N = true -> kind_at w N = Some KNet -> c_ro c = false ->
  let C := c_self c in let F := token_of w C in
  active w C -> is_connector w C from -> is_connector w C t -> cn_penabled (connector_of w C t) = true ->
  cross_quote w C from t v v = Some (x, fee) -> min <= x -> 0 <= x <= balance_of w t C -> movable w t ->
  x < reserve w C t - (if cn_venabled (connector_of w C t) then x else 0) ->
  exists w', convert_cross (exec adv (S (S f))) c N from t v min w = Ok (x, w').
Proof.
  intros HC Hf Ht Hft HN1 HN2 Hro C F Ha Hs1 Hs Hp Hq Hm Hx Hmv Hdep. destruct (conv_sc _ _ HC) as (sc & Hsc & K). destruct HC as (HC1 & HC2 & HF1 & HF2).
  fold C F in HC1, HC2, HF1, HF2. assert (conv_at w C) as HC by done.
  assert (exists w1 u1, (if cn_venabled (conn sc from) then modify c (set_virtual from (cn_virtual (conn sc from) + v)) else ret tt) w = Ok (u1, w1) /\
     eff w w1 zero2 zero1 (credit C from (if cn_venabled (conn sc from) then v else 0)) []) as (w1 & u1 & H1 & E1).
  { destruct (cn_venabled (conn sc from)).
    - exists (wput C (set_virtual from (cn_virtual (conn sc from) + v) sc) w), tt. split; [apply modify_Ok; by exists sc|].
      eapply eff_ext; [exact (eff_virtual w C sc from (cn_virtual (conn sc from) + v) Hsc)|done|done| |done]. intros X b. unfold credit. repeat case_decide; lia.
    - exists w, tt. split; [by apply ret_Ok|]. eapply eff_ext; [apply eff_refl|done|done| |done]. intros X b. unfold credit, zero2. by repeat case_decide. }
  pose proof (eff_ledger _ _ _ _ _ _ E1) as L1.
  assert (conv_at w1 C) as HC' by (by eapply ledger_conv). destruct (conv_sc _ _ HC') as (sc1 & Hsc1 & K1).
  assert (connector_of w1 C t = connector_of w C t) as ECt.
  { rewrite (eff_conn _ _ _ _ _ _ E1). unfold credit. rewrite (decide_False (P := t = from)) by done. rewrite decide_True by done. apply add_virtual_0. }
  destruct (lower_virtual c sc1 t x w1 Hsc1) as (w2 & u2 & H2 & E2).
  { rewrite <- (connector_of_sc _ _ _ _ Hsc1). fold C. rewrite ECt. intros Ev. unfold reserve in Hdep. rewrite Ev in Hdep. lia. }
  rewrite <- (connector_of_sc _ _ _ _ Hsc1) in E2. fold C in E2. rewrite ECt in E2.
  pose proof (eff_trans _ _ _ _ _ _ _ _ _ _ _ E1 E2) as E12. clear E1 E2. pose proof (eff_ledger _ _ _ _ _ _ E12) as L2.
  assert (reserve w2 C t = reserve w C t - (if cn_venabled (connector_of w C t) then x else 0)) as ER2.
  { unfold reserve. rewrite (eff_conn _ _ _ _ _ _ E12). unfold add_virtual at 1. cbn [cn_venabled].
    destruct (cn_venabled (connector_of w C t)) eqn:Ev.
    - unfold add_virtual. cbn [cn_virtual]. unfold credit, zero2. rewrite !(decide_True (P := C = C)) by done.
      rewrite !(decide_True (P := t = t)), !(decide_False (P := t = from)) by done. lia.
    - rewrite (eff_bal _ _ _ _ _ _ E12). unfold zero2. lia. }
  destruct (pay_ok f C t N x w2) as (w3 & H3); [by eapply ledger_token_at|done|by rewrite (ledger_kind _ _ _ L2)|by eapply net_not_token| |by apply (ledger_movable _ _ _ L2)|].
  { rewrite (eff_bal _ _ _ _ _ _ E12). unfold zero2. fold C in Hx. lia. }
  pose proof H3 as H3'. apply pay_inv in H3' as (_ & _ & E3); [|by eapply ledger_token_at|done|by rewrite (ledger_kind _ _ _ L2)|by eapply net_not_token].
  assert (is_connector w2 C t) as Hs2 by (by eapply ledger_connector).
  pose proof (eff_trans _ _ _ _ _ _ _ _ _ _ _ (eff_trans _ _ _ _ _ _ _ _ _ _ _ E12 E3) (eff_log1 w3 C (EvConversion from t N v x fee))) as E4. clear E12 E3.
  set (w4 := wlog C _ w3) in *. pose proof (eff_ledger _ _ _ _ _ _ E4) as L4.
  destruct (price_ok (S f) c from (supply_of w4 (token_of w4 C)) w4) as (w5 & H5); [by eapply ledger_conv|by eapply ledger_token_at|by eapply ledger_connector|].
  pose proof H5 as H5'. apply price_inv in H5'; [|by eapply ledger_conv|by eapply ledger_token_at].
  assert (exists e, eff w4 w5 zero2 zero1 zero2 e) as (e5 & E5). { subst w5. eexists. apply eff_log1. } clear H5'.
  pose proof (eff_trans _ _ _ _ _ _ _ _ _ _ _ E4 E5) as E45. pose proof (eff_ledger _ _ _ _ _ _ E45) as L5.
  destruct (price_ok (S f) c t (supply_of w4 (token_of w4 C)) w5) as (w6 & H6); [by eapply ledger_conv|by eapply ledger_token_at|by eapply ledger_connector|].
  exists w6. unfold convert_cross.
  apply bind_Ok. eexists (x, fee), w. split; [by apply cross_ok|].
  apply bind_Ok. exists tt, w. split; [apply require_Ok; split; [by apply Z.leb_le|done]|].
  apply bind_Ok. exists sc, w. split; [by apply this_Ok|].
  apply bind_Ok. exists u1, w1. split; [exact H1|].
  apply bind_Ok. exists sc1, w1. split; [by apply this_Ok|].
  apply bind_Ok. exists u2, w2. split; [exact H2|].
  apply bind_Ok. eexists _, w2. split; [apply connector_balance_ok; [by eapply ledger_conv|by eapply ledger_token_at|done]|].
  apply bind_Ok. exists tt, w2. split. { apply require_Ok. split; [|done]. fold C. rewrite ER2. by apply Z.ltb_lt. }
  apply bind_Ok. eexists _, w3. split; [unfold ecall; rewrite Hro; exact H3|].
  apply bind_Ok. exists tt, w4. split; [by apply emit_Ok|].
  apply bind_Ok. eexists _, w4. split; [apply token_supply_ok; by eapply ledger_conv|].
  apply bind_Ok. exists tt, w5. split; [exact H5|].
  apply bind_Ok. exists tt, w6. split; [exact H6|by apply ret_Ok].
Qed.

(* ------------------------------------------------- transfers to a converter ---- *)
Lemma wants_iff d to min : wants d to min <-> conv_request d = Some (to, min).
Proof.
  split.
  - intros (m & text & j & -> & H1 & H2 & H3 & H4). unfold conv_request. by rewrite H1, H3, H2, H4.
  - destruct d as [|m]; [done|]. unfold conv_request. intros H. destruct (m !! "toToken"%string) as [[| | |text|]|] eqn:E1; try done.
    destruct (m !! "minReturn"%string) as [j|] eqn:E2; [|done]. destruct (addr_from_string text) as [a|] eqn:E3; [|done].
    destruct (json_int j) as [z|] eqn:E4; [|done]. injection H as -> ->. exists m, text, j. done.
Qed.

Lemma move_ledger w T sc a b x : w_scores w !! T = Some sc -> ledger_only w (wupd T (add_bal b x (add_bal a (- x) sc)) [] w).
Proof. intros H. exact (eff_ledger _ _ _ _ _ _ (eff_move w T sc a b x H)). Qed.

Lemma to_converter_inv f ro s T C v d w r w' : token_at w T -> genuine_converter w C ->
  exec adv f ro s T 0 (MTransfer C v d) w = Ok (r, w') ->
  0 < v <= balance_of w T s /\ movable w T /\
  ((s = owner_of w C /\ is_connector w C T /\ ~ active w C /\
    exists sc, w_scores w !! T = Some sc /\ w' = wlog T (EvTransfer s C v (default data_none d)) (wupd T (add_bal C v (add_bal s (- v) sc)) [] w)) \/
   (s = network_of w C /\ conversions_enabled w C = true /\ exists to min, wants (default data_none d) to min /\ 0 < min /\ T <> to)).
Proof.
  intros HT (HC & HR1 & HR2) H. pose proof HT as [HT1 HT2]. destruct (token_sc _ _ HT2) as (sc & Hsc & Hk).
  destruct f as [|f]; [done|]. assert (s_kind sc <> KAdv) as HnA by (by intros E; rewrite E in Hk).
  destruct (proj1 (exec_honest_Ok adv f ro s T _ w sc (s_kind sc) r w' HT1 Hsc eq_refl HnA) H) as [_ H1]. clear H.
  eapply token_transfer_inv in H1; [|done|exact Hsc]. cbn [c_self c_sender c_ro default] in H1.
  destruct H1 as (Hx & Hmv & _ & -> & r2 & w2 & H & ->). rewrite <- (balance_of_sc _ _ _ s Hsc) in Hx.
  pose proof HC as (HC1 & _). rewrite HC1 in H. pose proof (move_ledger w T sc s C v Hsc) as L0. set (w1 := wupd T _ [] w) in *.
  destruct f as [|f]; [done|].
  assert (conv_at w1 C) as HC' by (by eapply ledger_conv). destruct (conv_sc _ _ HC') as (sc1 & Hsc1 & K1).
  destruct (proj1 (exec_honest_Ok adv f _ _ _ _ _ _ _ _ _ HC1 Hsc1 K1 ltac:(done)) H) as [_ H1]. clear H.
  cbn -[conv_tokenFallback] in H1.
  apply conv_fallback_inv in H1; cbn [c_self c_sender]; [|done|by rewrite (ledger_registry _ _ _ L0)|by rewrite (ledger_registry _ _ _ L0), (ledger_kind _ _ _ L0)].
  cbn [c_self c_sender] in H1. rewrite (ledger_owner _ _ _ L0), (ledger_registered _ _ _ _ L0), (ledger_registry _ _ _ L0), (ledger_enabled _ _ _ L0), (ledger_active _ _ _ L0) in H1.
  destruct H1 as (Hv & H1). split; [lia|]. split; [by apply (movable_sc _ _ _ Hsc)|].
  destruct H1 as [(Ho & Hs & Ha & -> & ->)|(Hreg & to & min & x & Hd & _ & Hen & Hmin & Hne & _)].
  - left. split; [done|]. split. { unfold is_connector in *. unfold w1 in Hs. by rewrite (eff_conn _ _ _ _ _ _ (eff_move w T sc s C v Hsc)) in Hs. }
    split; [done|]. by exists sc.
  - right. split; [done|]. split; [done|]. exists to, min. split; [by apply wants_iff|]. done.
Qed.

Lemma fund_ok f T C v d w : token_at w T -> genuine_converter w C ->
  is_connector w C T -> ~ active w C -> 0 < v <= balance_of w T (owner_of w C) -> movable w T ->
  exists w', exec adv (S (S (S f))) false (owner_of w C) T 0 (MTransfer C v d) w = Ok (RNone, w').
Proof.
  intros HT (HC & HR1 & HR2) Hs Ha Hv Hm. pose proof HT as [HT1 HT2]. destruct (token_sc _ _ HT2) as (sc & Hsc & Hk).
  eexists. eapply (transfer_ok _ _ _ _ _ _ _ sc RNone _ HT Hsc); [lia|done| |].
  { intros HK E. subst. destruct HC as (_ & G & _). congruence. }
  pose proof HC as (HC1 & _). rewrite HC1. set (s := owner_of w C) in *. pose proof (eff_move w T sc s C v Hsc) as E0. pose proof (eff_ledger _ _ _ _ _ _ E0) as L0. set (w1 := wupd T _ [] w) in *.
  assert (conv_at w1 C) as HC' by (by eapply ledger_conv). destruct (conv_sc _ _ HC') as (sc1 & Hsc1 & K1).
  apply (exec_honest_Ok adv _ _ _ _ _ _ _ _ _ _ HC1 Hsc1 K1 ltac:(done)). split; [by left|].
  cbn -[conv_tokenFallback exec]. unfold conv_tokenFallback, require_positive_value.
  apply bind_Ok. exists tt, w1. split; [apply require_Ok; split; [apply Z.ltb_lt; lia|done]|].
  apply bind_Ok. exists sc1, w1. split; [by apply this_Ok|]. cbn [c_sender].
  assert (s_owner sc1 = s) as Eo. { rewrite <- (owner_of_sc _ _ _ Hsc1). by apply ledger_owner. }
  assert (cn_set (conn sc1 T) = true) as Es. { rewrite <- (connector_of_sc _ _ _ _ Hsc1). by eapply ledger_connector. }
  rewrite Eo, Es, bool_decide_true by done. cbn [andb].
  apply bind_Ok. exists true, w1. split; [|by apply ret_Ok].
  apply bind_Ok. eexists _, w1. split; [by apply is_active_ok|]. apply ret_Ok. split; [|done].
  rewrite bool_decide_false; [done|]. cbn [c_self]. by rewrite (ledger_active _ _ _ L0).
Qed.

Lemma hop_ok f N T C v d w to min x fee : token_at w T -> genuine_converter w C ->
  network_at w N -> owner_of w C <> N -> token_at w to -> (forall X a, 0 <= balance_of w X a) ->
  wants d to min -> 0 < v <= balance_of w T N -> movable w T -> network_of w C = N -> conversions_enabled w C = true ->
  0 < min <= x -> executed_quote w C T to v = Some (x, fee) -> deliverable w C T to v x ->
  exists w', exec adv (S (S (S (S f)))) false N T 0 (MTransfer C v (Some d)) w = Ok (RNone, w').
Proof.
  intros HT (HC & HR1 & HR2) (HN1 & HNz & HN2) HoN Hto Hge Hd Hv Hm Hnet Hen Hmin Hq Hdel.
  pose proof HT as [HT1 HT2]. destruct (token_sc _ _ HT2) as (sc & Hsc & Hk).
  pose proof HC as (HC1 & HC2 & HF1 & HF2). pose proof (eff_move w T sc N C v Hsc) as E0. pose proof (eff_ledger _ _ _ _ _ _ E0) as L0. set (w1 := wupd T _ [] w) in *.
  assert (conv_at w1 C) as HC' by (by eapply ledger_conv). destruct (conv_sc _ _ HC') as (sc1 & Hsc1 & K1).
  (* the conversion proper *)
  assert (forall a, connector_of w1 C a = connector_of w C a) as Ecn.
  { intros a. rewrite (eff_conn _ _ _ _ _ _ E0). unfold zero2. apply add_virtual_0. }
  assert (forall X, supply_of w1 X = supply_of w X) as Esup. { intros X. rewrite (eff_sup _ _ _ _ _ _ E0). unfold zero1. lia. }
  assert (C <> N) as HCN by (intros ->; congruence).
  assert (token_of w1 C = token_of w C) as EF by (by apply ledger_token).
  assert (s_token sc1 = token_of w C) as EF1. { by rewrite <- EF, (token_of_sc _ _ _ Hsc1). }
  assert (s_enabled sc1 = true) as Een. { rewrite <- (ledger_enabled _ _ C L0) in Hen. unfold conversions_enabled in Hen. by rewrite (var_sc _ _ _ _ _ Hsc1) in Hen. }
  unfold executed_quote in Hq. destruct (decide (T = to)) as [|Hne]; [done|]. destruct (decide (active w C)) as [Ha|]; [|done].
  assert (active w1 C) as Ha1 by (by apply (ledger_active _ _ _ L0)).
  assert (token_at w1 T) as HT' by (by eapply ledger_token_at). assert (token_at w1 to) as Ht' by (by eapply ledger_token_at).
  assert (kind_at w1 N = Some KNet) as HN2' by (by rewrite (ledger_kind _ _ _ L0)).
  assert (reserve w1 C to = reserve w C to) as Ert.
  { unfold reserve. rewrite Ecn. destruct (cn_venabled _); [done|]. rewrite (eff_bal _ _ _ _ _ _ E0).
    unfold credit. rewrite !(decide_False (P := to = T)) by done. lia. }
  assert (reserve w1 C T - v = reserve w C T - used w C T v) as ErT.
  { unfold reserve, used. rewrite Ecn. destruct (cn_venabled _); [done|]. rewrite (eff_bal _ _ _ _ _ _ E0).
    unfold credit. rewrite !(decide_True (P := T = T)) by done. rewrite (decide_True (P := C = C)), (decide_False (P := C = N)) by done. lia. }
  assert (balance_of w1 to C = balance_of w to C) as Ebt.
  { rewrite (eff_bal _ _ _ _ _ _ E0). unfold credit. rewrite !(decide_False (P := to = T)) by done. lia. }
  assert (movable w to -> movable w1 to) as Emv by (apply (ledger_movable _ _ _ L0)).
  assert (forall m w2, m w1 = Ok (x, w2) ->
    (if bool_decide (to = s_token sc1) then buy (exec adv (S (S f))) (Ctx C T 0 false) N T v min
     else if bool_decide (T = s_token sc1) then sell (exec adv (S (S f))) (Ctx C T 0 false) N to v min
     else convert_cross (exec adv (S (S f))) (Ctx C T 0 false) N T to v min) = m ->
    conv_convert (exec adv (S (S f))) (Ctx C T 0 false) N T to v min w1 = Ok (x, w2)) as Hconv.
  { intros m w2 H1 H2. unfold conv_convert, require_positive_value.
    apply bind_Ok. exists sc1, w1. split; [by apply this_Ok|].
    apply bind_Ok. exists tt, w1. split; [by apply require_Ok|].
    apply bind_Ok. exists tt, w1. split; [apply require_Ok; split; [apply Z.ltb_lt; lia|done]|].
    apply bind_Ok. exists tt, w1. split; [apply require_Ok; split; [by apply bool_decide_eq_true|done]|].
    by rewrite H2. }
  unfold deliverable in Hdel. rewrite EF1 in Hconv.
  assert (exists w2, conv_convert (exec adv (S (S f))) (Ctx C T 0 false) N T to v min w1 = Ok (x, w2)) as (w2 & H2).
  {  destruct (decide (to = token_of w C)) as [EtF|NtF]; [|destruct (decide (T = token_of w C)) as [ETF|NTF]].
  - destruct (cn_set (connector_of w C T)) eqn:Es; [|done]. destruct (cn_penabled (connector_of w C T)) eqn:Ep; [|done]. cbn [andb] in Hq.
    destruct (buy_ok (S f) (Ctx C T 0 false) w1 N T v min x fee) as (w2 & H2); cbn [c_self c_ro]; try done; try (unfold is_connector; rewrite Ecn; done); try (rewrite Ecn; done); try lia.
    { unfold purchase_quote in *. by rewrite EF, Ecn, Esup, ErT, (ledger_fee _ _ _ L0). }
    exists w2. eapply Hconv; [exact H2|]. by rewrite bool_decide_true.
  - destruct (cn_set (connector_of w C to)) eqn:Es; [|done]. destruct Hdel as (Hd1 & Hd2 & Hd3).
    destruct (sell_ok f (Ctx C T 0 false) w1 N to v min x fee) as (w2 & H2); cbn [c_self c_ro]; try done; try (unfold is_connector; rewrite Ecn; done); try lia; try (by apply Emv).
    { congruence. }
    { unfold sale_quote in *. by rewrite EF, Ecn, Esup, Ert, (ledger_fee _ _ _ L0). }
    { rewrite EF, <- ETF, (eff_bal _ _ _ _ _ _ E0). unfold credit. rewrite !(decide_True (P := T = T)) by done. rewrite (decide_True (P := C = C)), (decide_False (P := C = N)) by done.
      specialize (Hge T C). lia. }
    { by rewrite Ert, EF, Esup. }
    exists w2. eapply Hconv; [exact H2|]. by rewrite bool_decide_false, bool_decide_true.
  - destruct (cn_set (connector_of w C T)) eqn:Es0; [|done]. destruct (cn_set (connector_of w C to)) eqn:Es; [|done]. destruct (cn_penabled (connector_of w C to)) eqn:Ep; [|done].
    cbn [andb] in Hq. destruct Hdel as (Hd1 & Hd2 & Hd3).
    destruct (convert_cross_ok f (Ctx C T 0 false) w1 N T to v min x fee) as (w2 & H2); cbn [c_self c_ro]; try done; try (unfold is_connector; rewrite Ecn; done); try (rewrite Ecn; done); try lia; try (by apply Emv).
    { unfold cross_quote in *. by rewrite !Ecn, Ert, ErT, (ledger_fee _ _ _ L0). }
    { rewrite Ert, Ecn. done. }
    exists w2. eapply Hconv; [exact H2|]. by rewrite !bool_decide_false.
  }
  exists (wlog T (EvTransfer N C v (default data_none (Some d))) w2).
  eapply (transfer_ok _ _ _ _ _ _ _ sc (RInt x) w2 HT Hsc); [lia|done| |].
  { intros HK E. subst. congruence. }
  rewrite HC1. cbn [default]. fold w1.
  apply (exec_honest_Ok adv _ _ _ _ _ _ _ _ _ _ HC1 Hsc1 K1 ltac:(done)). split; [by left|].
  cbn -[conv_tokenFallback exec]. unfold conv_tokenFallback, require_positive_value.
  apply bind_Ok. exists tt, w1. split; [apply require_Ok; split; [apply Z.ltb_lt; lia|done]|].
  apply bind_Ok. exists sc1, w1. split; [by apply this_Ok|]. cbn [c_sender].
  assert (s_owner sc1 = owner_of w C) as Eo. { rewrite <- (owner_of_sc _ _ _ Hsc1). by apply ledger_owner. }
  rewrite Eo, (bool_decide_false (N = _)) by congruence. cbn [andb].
  apply bind_Ok. exists false, w1. split; [by apply ret_Ok|]. cbv iota.
  apply bind_Ok. exists sc1, w1. split; [by apply this_Ok|].
  assert (s_registry sc1 = registry_of w C) as Er. { rewrite <- (ledger_registry _ _ C L0). symmetry. apply var_sc. exact Hsc1. }
  rewrite Er.
  apply bind_Ok. exists (RAddr N), w1. split.
  { unfold ecall. cbn [c_ro c_self]. rewrite <- Hnet. unfold network_of. rewrite <- (ledger_registered _ _ _ _ L0).
    assert (kind_at w1 (registry_of w C) = Some KReg) as HKr by (by rewrite (ledger_kind _ _ _ L0)).
    exact (reg_answers adv w1 (registry_of w C) HR1 HKr "Network"%string (S f) false C). }
  apply bind_Ok. exists tt, w1. split; [apply require_Ok; split; [by apply bool_decide_eq_true|done]|].
  apply wants_iff in Hd. rewrite Hd.
  apply bind_Ok. exists x, w2.

  split; [exact H2|by apply ret_Ok].
Qed.


(* the exact condition *)
Theorem hop_iff f N T C v d w : token_at w T -> genuine_converter w C ->
  network_at w N -> owner_of w C <> N -> (forall to min, wants d to min -> token_at w to) -> (forall X a, 0 <= balance_of w X a) ->
  succeeds (exec adv (S (S (S (S f)))) false N T 0 (MTransfer C v (Some d))) w <->
  0 < v <= balance_of w T N /\ movable w T /\ network_of w C = N /\ conversions_enabled w C = true /\
  exists to min x fee, wants d to min /\ 0 < min <= x /\ executed_quote w C T to v = Some (x, fee) /\ deliverable w C T to v x.
Proof.
  intros HT HG HN HoN Hto Hge. split.
  - intros (r & w' & H). apply hop in H; [|done|apply HG|apply HG|apply HG|apply HN|apply HN|done|by intros to min ?%wants_iff; eapply Hto].
    destruct H as (Hv & Hm & Hnet & Hen & Ha & to & min & x & fee & Hd & Hmin & Hne & Hq & _).
    do 4 (split; [done|]). exists to, min, x, fee. split; [by apply wants_iff|]. split; [done|].
    unfold executed_quote, deliverable. rewrite (decide_False (P := T = to)), (decide_True (P := active w C)) by done.
    destruct (decide (to = token_of w C)) as [EtF|NtF]; [|destruct (decide (T = token_of w C)) as [ETF|NTF]]; unfold is_connector in Hq.
    + by destruct Hq as (-> & -> & ->).
    + destruct Hq as (-> & -> & ? & ? & ?). done.
    + destruct Hq as (-> & -> & -> & -> & ? & ? & ?). done.
  - intros (Hv & Hm & Hnet & Hen & to & min & x & fee & Hd & Hmin & Hq & Hdel).
    destruct (hop_ok f N T C v d w to min x fee) as (w' & H); try done; [by eapply Hto|]. by exists RNone, w'.
Qed.
End live.

Section formulas.
Context (adv : adversary).

Lemma split_formula fee y k x fe : 0 <= fee <= 1000000 -> 0 <= k -> 0 <= y -> fee_split fee y k = Some (x, fe) -> after_fee fee k y x /\ fe = y - x.
Proof.
  intros Hf Hk Hy H. unfold fee_split in H. destruct (final_amount fee y k <=? y) eqn:E; [|done]. injection H as <- <-.
  destruct (final_amount_spec fee y k) as [? ?]; try done.
Qed.
Lemma formula_nonneg w C from to v adj y : 0 <= v -> formula_result w C from to v adj = Ok y -> 0 <= y.
Proof.
  intros Hv H. unfold formula_result in H. destruct (decide _); [|destruct (decide _)].
  - destruct (purchase_domain _ _ _ _ _ Hv H) as (A1 & A2 & A3 & A4). destruct (purchase_valid _ _ _ _ A1 A2 A3 Hv A4) as (r & Hr & ? & _). rewrite H in Hr. apply Ok_inj in Hr. subst. lia.
  - destruct (sale_domain _ _ _ _ _ Hv H) as (A1 & A2 & A3 & A4 & A5). destruct (sale_valid _ _ _ _ A1 A2 A3 (conj Hv A4) A5) as (r & Hr & ? & _). rewrite H in Hr. apply Ok_inj in Hr. subst. lia.
  - destruct (cross_domain _ _ _ _ _ _ Hv H) as (A1 & A2 & A3 & A4 & A5). destruct (cross_valid _ _ _ _ _ A1 A2 A3 A4 Hv A5) as (r & Hr & ? & _). rewrite H in Hr. apply Ok_inj in Hr. subst. lia.
Qed.
Lemma fee_steps_nonneg w C from to : 0 <= fee_steps w C from to.
Proof. unfold fee_steps. destruct (decide _); [done|]. by destruct (decide _). Qed.
Lemma quote_formula w C from to v x fee : 0 <= v -> 0 <= fee_of w C <= 1000000 -> quote w C from to v = Some (x, fee) ->
  exists y, formula_result w C from to v 0 = Ok y /\ after_fee (fee_of w C) (fee_steps w C from to) y x /\ fee = y - x.
Proof.
  intros Hv Hf H. pose proof (formula_nonneg w C from to v 0) as Hn. pose proof (fee_steps_nonneg w C from to) as Hs. unfold quote, formula_result, fee_steps in *.
  destruct (decide (from = to)); [done|]. destruct (decide (active w C)); [|done].
  destruct (decide (to = token_of w C)); [|destruct (decide (from = token_of w C))].
  - destruct (_ && _); [|done]. unfold purchase_quote in H. destruct (calculate_purchase_return _ _ _ _) as [y|]; [|done].
    exists y. split; [done|]. apply split_formula; auto.
  - destruct (cn_set _); [|done]. unfold sale_quote in H. destruct (calculate_sale_return _ _ _ _) as [y|]; [|done].
    exists y. split; [done|]. apply split_formula; auto.
  - destruct (_ && _); [|done]. unfold cross_quote in H. destruct (calculate_cross_connector_return _ _ _ _ _) as [y|]; [|done].
    exists y. split; [done|]. apply split_formula; auto.
Qed.
Lemma executed_formula w C from to v x fee : 0 <= v -> 0 <= fee_of w C <= 1000000 -> executed_quote w C from to v = Some (x, fee) ->
  exists y, formula_result w C from to v (used w C from v) = Ok y /\ after_fee (fee_of w C) (fee_steps w C from to) y x /\ fee = y - x.
Proof.
  intros Hv Hf H. pose proof (formula_nonneg w C from to v (used w C from v)) as Hn. pose proof (fee_steps_nonneg w C from to) as Hs. unfold executed_quote, formula_result, fee_steps in *.
  destruct (decide (from = to)); [done|]. destruct (decide (active w C)); [|done].
  destruct (decide (to = token_of w C)); [|destruct (decide (from = token_of w C))].
  - destruct (_ && _); [|done]. unfold purchase_quote in H. destruct (calculate_purchase_return _ _ _ _) as [y|]; [|done].
    exists y. split; [done|]. apply split_formula; auto.
  - destruct (cn_set _); [|done]. unfold sale_quote in H. destruct (calculate_sale_return _ _ _ _) as [y|]; [|done].
    exists y. split; [done|]. apply split_formula; auto.
  - destruct (_ && _); [|done]. unfold cross_quote in H. destruct (calculate_cross_connector_return _ _ _ _ _) as [y|]; [|done].
    exists y. split; [done|]. apply split_formula; auto.
Qed.

Lemma after_fee_eq fee k y x : 0 <= fee <= 1000000 -> 0 <= k -> 0 <= y -> after_fee fee k y x -> x = final_amount fee y k.
Proof.
  intros Hf Hk Hy [_ [H1 H2]]. destruct (final_amount_spec fee y k Hf Hy Hk) as [_ [H3 H4]]. set (z := final_amount fee y k) in *.
  assert (0 < 1000000 ^ k) by (apply Z.pow_pos_nonneg; lia). nia.
Qed.
Lemma fee_split_after fee k y x : 0 <= fee <= 1000000 -> 0 <= k -> 0 <= y -> after_fee fee k y x -> fee_split fee y k = Some (x, y - x).
Proof.
  intros Hf Hk Hy H. pose proof (after_fee_eq _ _ _ _ Hf Hk Hy H) as ->. unfold fee_split.
  destruct (final_amount_spec fee y k Hf Hy Hk) as [[_ H1] _]. rewrite (proj2 (Z.leb_le _ _) H1). done.
Qed.
Lemma executed_iff w C from to v x : 0 <= v -> 0 <= fee_of w C <= 1000000 ->
  (exists fee, executed_quote w C from to v = Some (x, fee)) <-> tradable w C from to /\ worth w C from to v (lowered w C from v) x.
Proof.
  intros Hv Hf. split.
  - intros (fee & H). split.
    + unfold executed_quote, tradable in *. destruct (decide (from = to)); [done|]. split; [done|]. destruct (decide (active w C)); [|done]. split; [done|].
      unfold is_connector. repeat case_decide; repeat match goal with H : context [cn_set ?x] |- _ => destruct (cn_set x) | H : context [cn_penabled ?x] |- _ => destruct (cn_penabled x) end; done.
    + apply executed_formula in H as (y & Hy & Ha & _); [|done|done]. by exists y.
  - intros ((H1 & H2 & H3) & y & Hy & Ha). exists (y - x). pose proof (formula_nonneg _ _ _ _ _ _ _ Hv Hy) as Hn. pose proof (fee_steps_nonneg w C from to) as Hs.
    unfold executed_quote, formula_result, fee_steps, is_connector in *. rewrite (decide_False (P := from = to)), (decide_True (P := active w C)) by done.
    destruct (decide (to = token_of w C)); [|destruct (decide (from = token_of w C))].
    + destruct H3 as (-> & ->). cbn [andb]. unfold purchase_quote, used. unfold lowered in Hy. rewrite Hy. by apply fee_split_after.
    + rewrite H3. unfold sale_quote. rewrite Hy. by apply fee_split_after.
    + destruct H3 as (-> & -> & ->). cbn [andb]. unfold cross_quote, used. unfold lowered in Hy. rewrite Hy. by apply fee_split_after.
Qed.
Lemma quoted_iff w C from to v x fee : 0 <= v -> 0 <= fee_of w C <= 1000000 ->
  quote w C from to v = Some (x, fee) <-> tradable w C from to /\ exists y, formula_result w C from to v 0 = Ok y /\ after_fee (fee_of w C) (fee_steps w C from to) y x /\ fee = y - x.
Proof.
  intros Hv Hf. split.
  - intros H. split.
    + unfold quote, tradable in *. destruct (decide (from = to)); [done|]. split; [done|]. destruct (decide (active w C)); [|done]. split; [done|].
      unfold is_connector. repeat case_decide; repeat match goal with H : context [cn_set ?x] |- _ => destruct (cn_set x) | H : context [cn_penabled ?x] |- _ => destruct (cn_penabled x) end; done.
    + by apply quote_formula.
  - intros ((H1 & H2 & H3) & y & Hy & Ha & ->). pose proof (formula_nonneg _ _ _ _ _ _ _ Hv Hy) as Hn. pose proof (fee_steps_nonneg w C from to) as Hs.
    unfold quote, formula_result, fee_steps, is_connector in *. rewrite (decide_False (P := from = to)), (decide_True (P := active w C)) by done.
    destruct (decide (to = token_of w C)); [|destruct (decide (from = token_of w C))].
    + destruct H3 as (-> & ->). cbn [andb]. unfold purchase_quote. rewrite Hy. by apply fee_split_after.
    + rewrite H3. unfold sale_quote. rewrite Hy. by apply fee_split_after.
    + destruct H3 as (-> & -> & ->). cbn [andb]. unfold cross_quote. rewrite Hy. by apply fee_split_after.
Qed.

(* a conversion at a converter, in the terms of the specification *)
Lemma conversion f ro N T C v d w r w' : token_at w T -> genuine_converter w C -> network_at w N -> owner_of w C <> N ->
  (forall to min, wants d to min -> token_at w to) ->
  exec adv f ro N T 0 (MTransfer C v (Some d)) w = Ok (r, w') ->
  let F := token_of w C in
  0 < v <= balance_of w T N /\ movable w T /\ network_of w C = N /\ conversions_enabled w C = true /\
  exists to min x fee, wants d to min /\ 0 < min <= x /\ executed_quote w C T to v = Some (x, fee) /\ deliverable w C T to v x /\
    eff w w' (trade_balances N C F T to v x) (trade_supply F T to v x) (trade_virtual w C F T to v x)
       ((T, EvTransfer N C v d) :: trade_events w' N C F T to v x fee).
Proof.
  intros HT HG HN HoN Hto H. apply hop in H; [|done|apply HG|apply HG|apply HG|apply HN|apply HN|done|by intros to min ?%wants_iff; eapply Hto].
  destruct H as (Hv & Hm & Hnet & Hen & Ha & to & min & x & fee & Hd & Hmin & Hne & Hq & HE).
  do 4 (split; [done|]). exists to, min, x, fee. split; [by apply wants_iff|]. split; [done|].
  unfold executed_quote, deliverable. rewrite (decide_False (P := T = to)), (decide_True (P := active w C)) by done.
  destruct (decide (to = token_of w C)) as [EtF|NtF]; [|destruct (decide (T = token_of w C)) as [ETF|NTF]]; unfold is_connector in Hq.
  - by destruct Hq as (-> & -> & ->).
  - destruct Hq as (-> & -> & ? & ? & ?). done.
  - destruct Hq as (-> & -> & -> & -> & ? & ? & ?). done.
Qed.

(* the purchase switch of connector t does not matter for sales, nor for an exchange of t for another connector *)
Lemma switch_irrelevant f f' s N T C v d t b w r0 w1 : token_at w T -> genuine_converter w C -> network_at w N -> owner_of w C <> N ->
  (forall to min, wants d to min -> token_at w to /\ (T = token_of w C \/ t = T /\ to <> token_of w C)) -> (forall X a, 0 <= balance_of w X a) ->
  exec adv (S f') false s C 0 (MDisableConnectorPurchases t b) w = Ok (r0, w1) ->
  succeeds (exec adv (S (S (S (S f)))) false N T 0 (MTransfer C v (Some d))) w <->
  succeeds (exec adv (S (S (S (S f)))) false N T 0 (MTransfer C v (Some d))) w1.
Proof.
  intros HT HG HN HoN Hto Hge H.
  destruct (conv_sc _ _ (proj1 HG)) as (sc & Hsc & K). pose proof (proj1 (proj1 HG)) as HC1.
  destruct (proj1 (disablePurchases_iff adv f' s C w sc HC1 Hsc t b r0 w1 K) H) as ((_ & Hset) & _ & E1). clear H.
  set (sc1 := set_conn t _ sc) in *. rewrite after_wupd in E1. cbn [rev] in E1.
  assert (ledger_only w w1) as L. { rewrite E1. apply (ledger_put w C sc sc1 [] Hsc). apply ledger_diff_conn. }
  assert (forall X u, connector_of w1 X u = if decide (X = C) then (if decide (u = t) then Connector (cn_virtual (conn sc t)) (cn_weight (conn sc t)) (cn_venabled (conn sc t)) (negb b) true else conn sc u) else connector_of w X u) as Ec.
  { intros X u. rewrite E1, connector_of_upd. destruct (decide (X = C)) as [->|]; [|done]. unfold sc1. apply conn_set_conn. }
  assert (forall u, cn_set (connector_of w1 C u) = cn_set (connector_of w C u) /\ cn_weight (connector_of w1 C u) = cn_weight (connector_of w C u) /\
    cn_venabled (connector_of w1 C u) = cn_venabled (connector_of w C u) /\ cn_virtual (connector_of w1 C u) = cn_virtual (connector_of w C u) /\
    (u <> t -> cn_penabled (connector_of w1 C u) = cn_penabled (connector_of w C u))) as Eu.
  { intros u. rewrite Ec, decide_True by done. rewrite (connector_of_sc _ _ _ u Hsc). destruct (decide (u = t)) as [->|]; [|done]. rewrite Hset. done. }
  assert (forall X a, balance_of w1 X a = balance_of w X a) as Eb. { intros X a. rewrite E1, balance_of_upd. destruct (decide (X = C)) as [->|]; [|done]. by rewrite (balance_of_sc _ _ _ _ Hsc). }
  assert (forall X, supply_of w1 X = supply_of w X) as Es. { intros X. rewrite E1. unfold supply_of. rewrite var_upd. destruct (decide (X = C)) as [->|]; [|done]. by rewrite (var_sc _ _ _ _ _ Hsc). }
  assert (forall u, reserve w1 C u = reserve w C u) as Er. { intros u. unfold reserve. destruct (Eu u) as (_ & _ & -> & -> & _). by rewrite Eb. }
  pose proof (ledger_token _ _ C L) as EF.
  assert (genuine_converter w1 C) as HG1. { destruct HG as (A & B & D). split; [by eapply ledger_conv|]. by rewrite (ledger_registry _ _ _ L), (ledger_kind _ _ _ L). }
  assert (network_at w1 N) as HN1. { destruct HN as (A & B & D). split; [done|]. split; [done|]. by rewrite (ledger_kind _ _ _ L). }
  rewrite (hop_iff adv f N T C v d w HT HG HN HoN (fun to min Hw => proj1 (Hto to min Hw)) Hge).
  rewrite (hop_iff adv f N T C v d w1 (ledger_token_at _ _ _ L HT) HG1 HN1 ltac:(by rewrite (ledger_owner _ _ _ L)) (fun to min Hw => ledger_token_at _ _ _ L (proj1 (Hto to min Hw))) ltac:(intros X a; rewrite Eb; apply Hge)).
  rewrite Eb, (ledger_movable _ _ _ L), (ledger_enabled _ _ _ L). unfold network_of. rewrite (ledger_registered _ _ _ _ L), (ledger_registry _ _ _ L).
  assert (forall to min x, wants d to min -> executed_quote w1 C T to v = executed_quote w C T to v /\ (deliverable w1 C T to v x <-> deliverable w C T to v x)) as Hq.
  { intros to min x Hw. destruct (Hto to min Hw) as [_ Hcase]. split.
    - unfold executed_quote. destruct (decide (T = to)) as [|Hne]; [done|]. rewrite EF.
      destruct (decide (active w C)) as [Ha|Ha]; [rewrite (decide_True (P := active w1 C)) by (by apply (ledger_active _ _ _ L))|rewrite (decide_False (P := active w1 C)) by (by rewrite (ledger_active _ _ _ L)); done].
      destruct (decide (to = token_of w C)) as [->|HtF]; [destruct Hcase as [->|[_ ?]]; done|].
      destruct (decide (T = token_of w C)) as [HTF|HTF].
      + destruct (Eu to) as (-> & E2 & _). unfold sale_quote. by rewrite EF, Es, Er, E2, (ledger_fee _ _ _ L).
      + destruct Hcase as [|[-> _]]; [done|]. destruct (Eu T) as (-> & E2 & E3 & _), (Eu to) as (-> & E4 & _ & _ & E5). rewrite E5 by congruence.
        unfold cross_quote, used. by rewrite E2, E3, E4, !Er, (ledger_fee _ _ _ L).
    - unfold deliverable. destruct (Eu to) as (_ & _ & E3 & _). rewrite EF, Eb, Er, E3, Es. pose proof (ledger_movable _ _ to L). destruct (decide _); [done|]. destruct (decide _); tauto. }
  split; intros (A1 & A2 & A3 & A4 & to & min & x & fee & B1 & B2 & B3 & B4); do 4 (split; [done|]); exists to, min, x, fee; destruct (Hq to min x B1) as [Q1 Q2]; (split; [done|]); (split; [done|]).
  - rewrite Q1. split; [done|]. by apply Q2.
  - rewrite <- Q1. split; [done|]. by apply Q2.
Qed.

Lemma real_converted w p v : real_path w p -> (3 <= List.length p)%nat -> converted w p v = quoted w p v.
Proof.
  destruct p as [|from rest]; [done|]. intros H _. cbn [converted quoted]. unfold path_executed, path_quote.
  revert from v H. induction rest as [| |f to rest IH] using list_ind2; intros from v H; try done.
  cbn in H. destruct H as [H1 H2]. cbn [along]. rewrite (executed_quote_real _ _ _ _ _ H1). destruct (quote _ _ _ _ _) as [[x fee]|]; [|done]. by apply IH.
Qed.
End formulas.
