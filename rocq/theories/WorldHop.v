(* One conversion at a genuine converter among genuine contracts: exact effects. *)
From Coq Require Import String Ascii ZArith Lia.
From stdpp Require Import base countable list numbers strings gmap relations.
From Verif Require Import Res FormulaConsts FormulaModel Codec World WorldBasics WorldSteps WorldExec WorldSpec WorldInv WorldMoney WorldAuth WorldNet WorldCalls WorldViews WorldConv.
Local Open Scope Z_scope.
Local Open Scope M_scope.

Lemma ledger_diff_refl sc : ledger_diff sc sc.
Proof. exists (s_bal sc), (s_supply sc), (s_connectors sc). by destruct sc. Qed.
Lemma ledger_diff_trans a b c : ledger_diff a b -> ledger_diff b c -> ledger_diff a c.
Proof. intros (b1 & s1 & c1 & ->) (b2 & s2 & c2 & ->). by exists b2, s2, c2. Qed.
Lemma ledger_diff_bal b sc : ledger_diff sc (set_bal b sc).
Proof. exists b, (s_supply sc), (s_connectors sc). by destruct sc. Qed.
Lemma ledger_diff_supply b sp sc : ledger_diff sc (set_supply sp (set_bal b sc)).
Proof. exists b, sp, (s_connectors sc). by destruct sc. Qed.
Lemma ledger_diff_conn cm sc : ledger_diff sc (set_connectors cm sc).
Proof. exists (s_bal sc), (s_supply sc), cm. by destruct sc. Qed.
Lemma ledger_refl w : ledger_only w w.
Proof. split; [done|]. intros X. destruct (w_scores w !! X); [apply ledger_diff_refl|done]. Qed.
Lemma ledger_trans w1 w2 w3 : ledger_only w1 w2 -> ledger_only w2 w3 -> ledger_only w1 w3.
Proof.
  intros [A1 A2] [B1 B2]. split; [congruence|]. intros X. specialize (A2 X). specialize (B2 X).
  destruct (w_scores w1 !! X), (w_scores w2 !! X), (w_scores w3 !! X); try done. by eapply ledger_diff_trans.
Qed.
Lemma ledger_put w T sc sc' evs : w_scores w !! T = Some sc -> ledger_diff sc sc' -> ledger_only w (wupd T sc' evs w).
Proof.
  intros Hsc Hst. split; [done|]. intros X. unfold wupd. cbn. destruct (decide (X = T)) as [->|Hne].
  - by rewrite lookup_insert, Hsc.
  - rewrite lookup_insert_ne by done. destruct (w_scores w !! X); [apply ledger_diff_refl|done].
Qed.

(* amounts added to single accounts *)
Definition add_virtual (z : Z) (cn : connector) : connector :=
  Connector (cn_virtual cn + z) (cn_weight cn) (cn_venabled cn) (cn_penabled cn) (cn_set cn).

(* exact effect: changes of balances, supplies, virtual balances, and the events (newest first) *)
Record eff (w w' : world) (db : addr -> addr -> Z) (ds : addr -> Z) (dv : addr -> addr -> Z) (evs : list (addr * event)) : Prop := {
  eff_ledger : ledger_only w w';
  eff_bal : forall X a, balance_of w' X a = balance_of w X a + db X a;
  eff_sup : forall X, supply_of w' X = supply_of w X + ds X;
  eff_conn : forall X t, connector_of w' X t = add_virtual (dv X t) (connector_of w X t);
  eff_log : w_log w' = evs ++ w_log w }.
Definition zero1 : addr -> Z := fun _ => 0.
Definition zero2 : addr -> addr -> Z := fun _ _ => 0.
Lemma add_virtual_0 cn : add_virtual 0 cn = cn.
Proof. destruct cn. unfold add_virtual. cbn. f_equal. lia. Qed.
Lemma add_virtual_add x y cn : add_virtual y (add_virtual x cn) = add_virtual (x + y) cn.
Proof. unfold add_virtual. cbn. f_equal. lia. Qed.
Lemma eff_refl w : eff w w zero2 zero1 zero2 [].
Proof. constructor; unfold zero1, zero2; try (intros; lia); [apply ledger_refl|intros; by rewrite add_virtual_0|done]. Qed.
Lemma eff_trans w1 w2 w3 db1 ds1 dv1 e1 db2 ds2 dv2 e2 : eff w1 w2 db1 ds1 dv1 e1 -> eff w2 w3 db2 ds2 dv2 e2 ->
  eff w1 w3 (fun X a => db1 X a + db2 X a) (fun X => ds1 X + ds2 X) (fun X t => dv1 X t + dv2 X t) (e2 ++ e1).
Proof.
  intros [A1 A2 A3 A4 A5] [B1 B2 B3 B4 B5]. constructor.
  - by eapply ledger_trans.
  - intros X a. rewrite B2, A2. lia.
  - intros X. rewrite B3, A3. lia.
  - intros X t. by rewrite B4, A4, add_virtual_add.
  - by rewrite B5, A5, app_assoc.
Qed.
Lemma eff_ext w w' db ds dv e db' ds' dv' e' : eff w w' db ds dv e ->
  (forall X a, db X a = db' X a) -> (forall X, ds X = ds' X) -> (forall X t, dv X t = dv' X t) -> e = e' -> eff w w' db' ds' dv' e'.
Proof. intros [A1 A2 A3 A4 A5] H1 H2 H3 <-. constructor; [done|..|done]; intros; [rewrite <- H1|rewrite <- H2|rewrite <- H3]; auto. Qed.

Lemma connector_of_upd w a sc evs b t : connector_of (wupd a sc evs w) b t = if decide (b = a) then conn sc t else connector_of w b t.
Proof. unfold connector_of. rewrite var_upd. done. Qed.

Lemma eff_log1 w a e : eff w (wlog a e w) zero2 zero1 zero2 [(a, e)].
Proof.
  constructor; try done; unfold zero1, zero2.
  - exact (ledger_refl w).
  - intros X b. change (balance_of (wlog a e w) X b) with (balance_of w X b). lia.
  - intros X. change (supply_of (wlog a e w) X) with (supply_of w X). lia.
  - intros X t. rewrite add_virtual_0. done.
Qed.
Lemma eff_move w T sc from to x : w_scores w !! T = Some sc ->
  eff w (wupd T (add_bal to x (add_bal from (- x) sc)) [] w) (fun X a => credit T from (- x) X a + credit T to x X a) zero1 zero2 [].
Proof.
  intros Hsc. constructor; unfold zero1, zero2.
  - eapply ledger_put; [exact Hsc|]. eapply ledger_diff_trans; apply ledger_diff_bal.
  - intros X a. rewrite balance_of_upd. unfold credit. case_decide; [|lia]. subst.
    rewrite !balance_add, (balance_of_sc _ _ _ _ Hsc). repeat case_decide; lia.
  - intros X. rewrite supply_of_upd. case_decide; [subst; rewrite (supply_of_sc _ _ _ Hsc); cbn; lia|lia].
  - intros X t. rewrite connector_of_upd, add_virtual_0. case_decide; [subst; by rewrite (connector_of_sc _ _ _ _ Hsc)|done].
  - done.
Qed.
Lemma eff_mint w T sc to x evs : w_scores w !! T = Some sc ->
  eff w (wupd T (set_supply (s_supply sc + x) (add_bal to x sc)) evs w) (credit T to x) (fun X => if decide (X = T) then x else 0) zero2 (map (pair T) evs).
Proof.
  intros Hsc. constructor; unfold zero1, zero2.
  - eapply ledger_put; [exact Hsc|]. apply ledger_diff_supply.
  - intros X a. rewrite balance_of_upd. unfold credit. case_decide; [|lia]. subst.
    rewrite balance_set_supply, !balance_add, (balance_of_sc _ _ _ _ Hsc). repeat case_decide; lia.
  - intros X. rewrite supply_of_upd. case_decide; [subst; rewrite (supply_of_sc _ _ _ Hsc); cbn; lia|lia].
  - intros X t. rewrite connector_of_upd, add_virtual_0. case_decide; [subst; by rewrite (connector_of_sc _ _ _ _ Hsc)|done].
  - done.
Qed.
Lemma eff_virtual w C sc t z : w_scores w !! C = Some sc ->
  eff w (wput C (set_virtual t z sc) w) zero2 zero1 (credit C t (z - cn_virtual (conn sc t))) [].
Proof.
  intros Hsc. change (wput C (set_virtual t z sc) w) with (wupd C (set_virtual t z sc) [] w). constructor; unfold zero1, zero2.
  - eapply ledger_put; [exact Hsc|]. apply ledger_diff_conn.
  - intros X a. rewrite balance_of_upd. case_decide; [|lia]. subst. rewrite (balance_of_sc _ _ _ _ Hsc). cbn. unfold balance. cbn. lia.
  - intros X. rewrite supply_of_upd. case_decide; [subst; rewrite (supply_of_sc _ _ _ Hsc); cbn; lia|lia].
  - intros X b. rewrite connector_of_upd. unfold credit. case_decide; [|by rewrite add_virtual_0].
    subst. rewrite (connector_of_sc _ _ _ _ Hsc). unfold set_virtual. rewrite conn_set_conn. case_decide; [|by rewrite add_virtual_0].
    subst. unfold add_virtual. f_equal. lia.
  - done.
Qed.

(* everything else is as before *)
Lemma eff_var {X} (d : X) g w w' a : ledger_only w w' -> (forall sc b sp cm, g (set_connectors cm (set_supply sp (set_bal b sc))) = g sc) ->
  var d g w' a = var d g w a.
Proof.
  intros [_ H] Hg. specialize (H a). unfold var. destruct (w_scores w !! a), (w_scores w' !! a); try done.
  destruct H as (b & sp & cm & ->). apply Hg.
Qed.
Lemma ledger_kind w w' a : ledger_only w w' -> kind_at w' a = kind_at w a.
Proof.
  intros [_ H]. specialize (H a). unfold kind_at. destruct (w_scores w !! a), (w_scores w' !! a); try done.
  destruct H as (b & sp & cm & ->). done.
Qed.
Lemma ledger_owner w w' a : ledger_only w w' -> owner_of w' a = owner_of w a.
Proof. intros H. by apply eff_var. Qed.
Lemma ledger_token w w' a : ledger_only w w' -> token_of w' a = token_of w a.
Proof. intros H. by apply eff_var. Qed.
Lemma ledger_fee w w' a : ledger_only w w' -> fee_of w' a = fee_of w a.
Proof. intros H. by apply eff_var. Qed.
Lemma ledger_movable w w' a : ledger_only w w' -> movable w' a <-> movable w a.
Proof.
  intros L. unfold movable. rewrite (ledger_kind _ _ _ L). enough (transferable w' a = transferable w a) as -> by done.
  by apply eff_var.
Qed.
Lemma ledger_registry w w' a : ledger_only w w' -> registry_of w' a = registry_of w a.
Proof. intros H. by apply eff_var. Qed.
Lemma ledger_enabled w w' a : ledger_only w w' -> conversions_enabled w' a = conversions_enabled w a.
Proof. intros H. by apply eff_var. Qed.
Lemma ledger_registered w w' a n : ledger_only w w' -> registered w' a n = registered w a n.
Proof. intros H. by apply eff_var. Qed.
Lemma ledger_icxreg w w' a n : ledger_only w w' -> icx_registered w' a n = icx_registered w a n.
Proof. intros H. by apply eff_var. Qed.
Lemma ledger_active w w' a : ledger_only w w' -> active w' a <-> active w a.
Proof. intros H. unfold active. by rewrite (ledger_token _ _ _ H), (ledger_owner _ _ _ H). Qed.
Lemma ledger_conv w w' a : ledger_only w w' -> conv_at w a -> conv_at w' a.
Proof. intros H (A & B & C & D). unfold conv_at. by rewrite (ledger_token _ _ _ H), !(ledger_kind _ _ _ H). Qed.
Lemma ledger_token_at w w' a : ledger_only w w' -> token_at w a -> token_at w' a.
Proof. intros H (A & B). unfold token_at, is_token in *. by rewrite !(ledger_kind _ _ _ H). Qed.

Section hop.
Variable adv : adversary.

(* the tokenFallback of a converter, taken apart *)
Lemma conv_fallback_inv f c w N v d r w' : conv_at w (c_self c) ->
  is_contract (registry_of w (c_self c)) = true -> kind_at w (registry_of w (c_self c)) = Some KReg ->
  conv_tokenFallback (exec adv f) c N v d w = Ok (r, w') -> 0 < v /\
  ((owner_of w (c_self c) = N /\ is_connector w (c_self c) (c_sender c) /\ ~ active w (c_self c) /\ r = RNone /\ w' = w) \/
   (registered w (registry_of w (c_self c)) "Network" = N /\
    exists to min x, conv_request d = Some (to, min) /\ r = RInt x /\
      conversions_enabled w (c_self c) = true /\ 0 < min /\ c_sender c <> to /\
      (if decide (to = token_of w (c_self c)) then buy (exec adv f) c N (c_sender c) v min
       else if decide (c_sender c = token_of w (c_self c)) then sell (exec adv f) c N to v min
       else convert_cross (exec adv f) c N (c_sender c) to v min) w = Ok (x, w'))).
Proof.
  intros HC HR1 HR2 H. destruct (conv_sc _ _ HC) as (sc & Hsc & K).
  unfold conv_tokenFallback, require_positive_value in H.
  apply bind_Ok in H as (u & w0 & H0 & H). mrun H0. bools. split; [done|].
  apply bind_Ok in H as (sc0 & w0 & H0 & H). apply this_Ok in H0 as [H0 ->]. assert (sc0 = sc) as -> by congruence.
  apply bind_Ok in H as (acc & w0 & H1 & H).
  assert (w0 = w /\ (acc = true -> owner_of w (c_self c) = N /\ is_connector w (c_self c) (c_sender c) /\ ~ active w (c_self c))) as [-> Hacc].
  { destruct (bool_decide (N = s_owner sc) && cn_set (conn sc (c_sender c))) eqn:Eb.
    - apply bind_Ok in H1 as (b & w1 & H1 & H2). apply is_active_inv in H1 as [-> ->]; [|done].
      apply ret_Ok in H2 as [-> ->]. split; [done|]. intros G. bools. rewrite (owner_of_sc _ _ _ Hsc). unfold is_connector.
      rewrite (connector_of_sc _ _ _ _ Hsc). done.
    - apply ret_Ok in H1 as [-> ->]. done. }
  destruct acc.
  { apply ret_Ok in H as [-> ->]. left. destruct (Hacc eq_refl) as (? & ? & ?). done. }
  right. clear Hacc H1.
  apply bind_Ok in H as (sc1 & w0 & H1 & H). apply this_Ok in H1 as [H1 ->]. assert (sc1 = sc) as -> by congruence.
  apply bind_Ok in H as (rr & w0 & H2 & H).
  assert (registry_of w (c_self c) = s_registry sc) as ER by (by apply var_sc).
  rewrite <- ER in H2. pose proof (reg_answers adv w _ HR1 HR2 "Network") as Ha.
  apply (ecall_answers _ _ _ _ _ _ _ _ _ Ha) in H2 as [-> ->].
  apply bind_Ok in H as (u' & w0 & H2 & H). mrun H2. bools.
  split; [done|].
  destruct (conv_request d) as [[to min]|]; [|done].
  apply bind_Ok in H as (x & w0 & H3 & H). apply ret_Ok in H as [-> ->].
  exists to, min, x. split; [done|]. split; [done|].
  unfold conv_convert, require_positive_value in H3.
  apply bind_Ok in H3 as (sc2 & w2 & H2 & H3). apply this_Ok in H2 as [H2 ->]. assert (sc2 = sc) as -> by congruence.
  apply bind_Ok in H3 as (u2 & w2 & H4 & H3). mrun H4.
  apply bind_Ok in H3 as (u3 & w2 & H4 & H3). mrun H4.
  apply bind_Ok in H3 as (u4 & w2 & H4 & H3). mrun H4. bools.
  rewrite (token_of_sc _ _ _ Hsc). unfold conversions_enabled. rewrite (var_sc _ _ _ _ _ Hsc).
  split; [done|]. split; [done|]. split; [done|].
  repeat case_bool_decide; repeat case_decide; done.
Qed.

(* paying the network *)
Lemma pay_inv f ro s T N x w r w' : token_at w T -> is_contract N = true -> kind_at w N = Some KNet -> N <> T ->
  exec adv f ro s T 0 (MTransfer N x (Some data_result)) w = Ok (r, w') ->
  0 <= x <= balance_of w T s /\ movable w T /\
  eff w w' (fun X a => credit T s (- x) X a + credit T N x X a) zero1 zero2 [(T, EvTransfer s N x data_result)].
Proof.
  intros [HT1 HT2] HN1 HN2 Hne H. destruct (token_sc _ _ HT2) as (sc & Hsc & Hk). destruct f as [|f]; [done|].
  assert (s_kind sc <> KAdv) as HnA by (by intros E; rewrite E in Hk).
  destruct (proj1 (exec_honest_Ok adv f ro s T _ w sc (s_kind sc) r w' HT1 Hsc eq_refl HnA) H) as [_ H']. clear H. rename H' into H.
  eapply token_transfer_inv in H; [|done|exact Hsc]. cbn [c_self c_sender c_ro default] in H.
  destruct H as (Hx & Hmv & _ & -> & r2 & w2 & H & ->). rewrite HN1 in H.
  rewrite (balance_of_sc _ _ _ _ Hsc). split; [done|].
  split. { unfold movable, kind_at, transferable, var. rewrite Hsc. cbn. intros [=]. by apply Hmv. }
  set (w1 := wupd T _ [] w) in H.
  assert (w2 = w1) as ->.
  { destruct f as [|f]; [done|].
    apply kind_at_Some in HN2 as (scN & HscN & KN).
    assert (w_scores w1 !! N = Some scN) as HscN1. { unfold w1, wupd. cbn. by rewrite lookup_insert_ne. }
    destruct (proj1 (exec_honest_Ok adv _ _ _ _ _ _ _ _ _ _ HN1 HscN1 KN ltac:(done)) H) as [_ H']. clear H. rename H' into H.
    apply net_fallback_inv in H as [[_ ->]|(? & ? & ? & ? & Hd & _)]; [done|]. done. }
  eapply eff_ext; [eapply eff_trans; [apply (eff_move w T sc s N x Hsc)|apply eff_log1]|..]; unfold zero1, zero2; intros; try lia; done.
Qed.
Lemma issue_inv f ro s T to x w r w' : is_contract T = true -> kind_at w T = Some KFlex ->
  exec adv f ro s T 0 (MIssue to x) w = Ok (r, w') -> 0 < x /\ owner_of w T = s /\
  eff w w' (credit T to x) (fun X => if decide (X = T) then x else 0) zero2 [(T, EvTransfer T to x data_none); (T, EvIssuance x)].
Proof.
  intros HT1 HK H. apply kind_at_Some in HK as (sc & Hsc & K). destruct f as [|f]; [done|]. destruct ro.
  { destruct (proj1 (exec_honest_Ok adv _ _ _ _ _ _ _ _ _ _ HT1 Hsc K ltac:(done)) H) as [[?|?] _]; done. }
  apply (issue_iff adv f s T w sc HT1 Hsc to x r w' K) in H as ((? & ? & _) & -> & ->).
  rewrite (owner_of_sc _ _ _ Hsc). split; [done|]. split; [done|]. exact (eff_mint w T sc to x [EvTransfer T to x data_none; EvIssuance x] Hsc).
Qed.
Lemma burn_inv f ro s T a x w r w' : is_contract T = true -> kind_at w T = Some KFlex ->
  exec adv f ro s T 0 (MDestroy a x) w = Ok (r, w') -> 0 < x <= balance_of w T a /\
  eff w w' (credit T a (- x)) (fun X => if decide (X = T) then - x else 0) zero2 [(T, EvTransfer a T x data_none); (T, EvDestruction x)].
Proof.
  intros HT1 HK H. apply kind_at_Some in HK as (sc & Hsc & K). destruct f as [|f]; [done|]. destruct ro.
  { destruct (proj1 (exec_honest_Ok adv _ _ _ _ _ _ _ _ _ _ HT1 Hsc K ltac:(done)) H) as [[?|?] _]; done. }
  apply (destroy_iff adv f s T w sc HT1 Hsc a x r w' K) in H as ((? & _) & -> & ->).
  rewrite (balance_of_sc _ _ _ _ Hsc). split; [done|]. exact (eff_mint w T sc a (- x) [EvTransfer a T x data_none; EvDestruction x] Hsc).
Qed.

(* logging the price *)
Lemma price_inv f c t s w u w' : conv_at w (c_self c) -> token_at w t -> price_data_update (exec adv f) c t s w = Ok (u, w') ->
  w' = wlog (c_self c) (EvPriceDataUpdate t s (reserve w (c_self c) t) (cn_weight (connector_of w (c_self c) t))) w.
Proof.
  intros HC Ht H. unfold price_data_update in H. apply bind_Ok in H as (z & w0 & H0 & H).
  apply connector_balance_inv in H0 as (_ & -> & ->); [|done..].
  apply bind_Ok in H as (sc & w0 & H0 & H). mrun H0. mrun H. by rewrite (connector_of_sc _ _ _ _ Hsc).
Qed.

Notation sel b x := (if b : bool then x else 0).

Lemma buy_inv f c w N t v min x w' : conv_at w (c_self c) -> token_at w t -> t <> token_of w (c_self c) ->
  buy (exec adv f) c N t v min w = Ok (x, w') ->
  let C := c_self c in let F := token_of w C in
  exists fee, active w C /\ is_connector w C t /\ cn_penabled (connector_of w C t) = true /\
    purchase_quote w (c_self c) t v v = Some (x, fee) /\ min <= x /\ 0 < x /\
    eff w w' (credit F N x) (fun X => if decide (X = F) then x else 0) (credit C t (sel (cn_venabled (connector_of w C t)) v))
      [(C, EvPriceDataUpdate t (supply_of w F + x) (reserve w C t + sel (cn_venabled (connector_of w C t)) v) (cn_weight (connector_of w C t))); (C, EvConversion t F N v x fee);
       (F, EvTransfer F N x data_none); (F, EvIssuance x)].
Proof.
  intros HC Ht HtF H C F. unfold buy in H.
  apply bind_Ok in H as ([x0 fee] & w0 & H0 & H). apply purchase_inv in H0 as ((Ha & Hs & Hp & Hq) & ->); [|done..].
  apply bind_Ok in H as (u & w0 & H0 & H). mrun H0. bools.
  apply bind_Ok in H as (sc & w0 & H0 & H). apply this_Ok in H0 as [Hsc ->].
  apply bind_Ok in H as (u1 & w1 & H1 & H).
  assert (eff w w1 zero2 zero1 (credit C t (sel (cn_venabled (connector_of w C t)) v)) []) as E1.
  { rewrite (connector_of_sc _ _ _ _ Hsc). destruct (cn_venabled (conn sc t)).
    - apply modify_Ok in H1 as (sc' & Hsc' & ->). assert (sc' = sc) as -> by congruence.
      eapply eff_ext; [exact (eff_virtual w C sc t (cn_virtual (conn sc t) + v) Hsc)|done|done| |done].
      intros X b. unfold credit. repeat case_decide; lia.
    - apply ret_Ok in H1 as [_ ->]. eapply eff_ext; [apply eff_refl|done|done| |done]. intros X b. unfold credit, zero2. by repeat case_decide. }
  clear H1. pose proof (eff_ledger _ _ _ _ _ _ E1) as L1.
  apply bind_Ok in H as (sc1 & w2 & H1 & H). apply this_Ok in H1 as [Hsc1 ->].
  assert (s_token sc1 = F) as EF. { rewrite <- (token_of_sc _ _ _ Hsc1). by apply ledger_token. }
  rewrite EF in H.
  apply bind_Ok in H as (r2 & w2 & H2 & H). destruct (HC) as (_ & _ & HF1 & HF2).
  assert (kind_at w1 F = Some KFlex) as HF2' by (by rewrite (ledger_kind _ _ _ L1)).
  apply issue_inv in H2 as (Hx & _ & E2); [|done..].
  pose proof (eff_trans _ _ _ _ _ _ _ _ _ _ _ E1 E2) as E12.
  apply bind_Ok in H as (u3 & w3 & H3 & H). mrun H3.
  pose proof (eff_trans _ _ _ _ _ _ _ _ _ _ _ E12 (eff_log1 w2 C (EvConversion t F N v x0 fee))) as E3. clear E12.
  pose proof (eff_ledger _ _ _ _ _ _ E3) as L3. set (w3 := wlog C _ w2) in *.
  assert (conv_at w3 C) as HC3 by (by eapply ledger_conv).
  apply bind_Ok in H as (s4 & w4 & H4 & H). apply token_supply_inv in H4 as [-> ->]; [|done].
  apply bind_Ok in H as (u5 & w5 & H5 & H). apply price_inv in H5 as ->; [|done|by eapply ledger_token_at].
  apply ret_Ok in H as [-> ->].
  exists fee. do 6 (split; [done|]).
  pose proof (eff_trans _ _ _ _ _ _ _ _ _ _ _ E3 (eff_log1 w3 C (EvPriceDataUpdate t (supply_of w3 (token_of w3 C)) (reserve w3 C t) (cn_weight (connector_of w3 C t))))) as E.
  assert (supply_of w3 F = supply_of w F + x0) as ES.
  { rewrite (eff_sup _ _ _ _ _ _ E3). unfold zero1. case_decide; [lia|done]. }
  assert (reserve w3 C t = reserve w C t + sel (cn_venabled (connector_of w C t)) v) as ER.
  { unfold reserve. rewrite (eff_conn _ _ _ _ _ _ E3). unfold add_virtual at 1. cbn [cn_venabled].
    destruct (cn_venabled (connector_of w C t)) eqn:Ev.
    - unfold add_virtual. cbn [cn_virtual]. unfold credit, zero2. rewrite !decide_True by done. lia.
    - rewrite (eff_bal _ _ _ _ _ _ E3). unfold credit, zero2. rewrite (decide_False (P := t = F)) by done. lia. }
  assert (cn_weight (connector_of w3 C t) = cn_weight (connector_of w C t)) as EW by by rewrite (eff_conn _ _ _ _ _ _ E3).
  eapply eff_ext; [exact E|..]; unfold zero1, zero2; intros; try lia.
  rewrite (ledger_token _ _ _ L3). fold F. by rewrite ES, ER, EW.
Qed.

Lemma net_not_token w N t : kind_at w N = Some KNet -> token_at w t -> N <> t.
Proof. intros H [_ Ht] ->. unfold is_token in Ht. rewrite H in Ht. by destruct Ht as [?|[?|?]]. Qed.

Lemma sell_inv f c w N t v min x w' : conv_at w (c_self c) -> token_at w t -> t <> token_of w (c_self c) ->
  is_contract N = true -> kind_at w N = Some KNet ->
  sell (exec adv f) c N t v min w = Ok (x, w') ->
  let C := c_self c in let F := token_of w C in
  exists fee, active w C /\ is_connector w C t /\
    sale_quote w (c_self c) t v = Some (x, fee) /\ min <= x /\ 0 < v <= balance_of w F C /\ 0 <= x <= balance_of w t C /\ movable w t /\
    (x < reserve w C t \/ x = reserve w C t /\ v = supply_of w F) /\
    eff w w' (fun X a => credit F C (- v) X a + credit t C (- x) X a + credit t N x X a) (fun X => if decide (X = F) then - v else 0)
      (credit C t (sel (cn_venabled (connector_of w C t)) (- x)))
      [(C, EvPriceDataUpdate t (supply_of w F - v) (reserve w C t - x) (cn_weight (connector_of w C t)));
       (C, EvConversion F t N v x fee); (t, EvTransfer C N x data_result);
       (F, EvTransfer C F v data_none); (F, EvDestruction v)].
Proof.
  intros HC Ht HtF HN1 HN2 H C F. unfold sell in H.
  apply bind_Ok in H as ([x0 fee] & w0 & H0 & H). apply sale_inv in H0 as ((Ha & Hs & Hq) & ->); [|done..].
  apply bind_Ok in H as (u & w0 & H0 & H). mrun H0. bools.
  apply bind_Ok in H as (s4 & w4 & H4 & H). apply token_supply_inv in H4 as [-> ->]; [|done].
  apply bind_Ok in H as (s4 & w4 & H4 & H). apply connector_balance_inv in H4 as (_ & -> & ->); [|done..].
  apply bind_Ok in H as (u2 & w0 & H0 & H). mrun H0. 
  assert (x0 < reserve w C t \/ x0 = reserve w C t /\ v = supply_of w F) as Hdep.
  { apply orb_true_iff in Hreq0 as [G|G]; [left|right]; bools; done. }
  apply bind_Ok in H as (sc & w0 & H0 & H). apply this_Ok in H0 as [Hsc ->].
  apply bind_Ok in H as (u1 & w1 & H1 & H).
  assert (eff w w1 zero2 zero1 (credit C t (sel (cn_venabled (connector_of w C t)) (- x0))) []) as E1.
  { rewrite (connector_of_sc _ _ _ _ Hsc). destruct (cn_venabled (conn sc t)).
    - apply bind_Ok in H1 as (vv & w0 & H0 & H1). apply safe_sub_Ok in H0 as (_ & -> & ->).
      apply modify_Ok in H1 as (sc' & Hsc' & ->). assert (sc' = sc) as -> by congruence.
      eapply eff_ext; [exact (eff_virtual w C sc t (cn_virtual (conn sc t) - x0) Hsc)|done|done| |done].
      intros X b. unfold credit. repeat case_decide; lia.
    - apply ret_Ok in H1 as [_ ->]. eapply eff_ext; [apply eff_refl|done|done| |done]. intros X b. unfold credit, zero2. by repeat case_decide. }
  clear H1. pose proof (eff_ledger _ _ _ _ _ _ E1) as L1.
  apply bind_Ok in H as (sc1 & w2 & H1 & H). apply this_Ok in H1 as [Hsc1 ->].
  assert (s_token sc1 = F) as EF. { rewrite <- (token_of_sc _ _ _ Hsc1). by apply ledger_token. }
  rewrite EF in H.
  apply bind_Ok in H as (r2 & w2 & H2 & H). destruct (HC) as (_ & _ & HF1 & HF2).
  assert (kind_at w1 F = Some KFlex) as HF2' by (by rewrite (ledger_kind _ _ _ L1)).
  apply burn_inv in H2 as (Hx & E2); [|done..]. rewrite (eff_bal _ _ _ _ _ _ E1) in Hx. unfold zero2 in Hx.
  pose proof (eff_trans _ _ _ _ _ _ _ _ _ _ _ E1 E2) as E12. pose proof (eff_ledger _ _ _ _ _ _ E12) as L2.
  apply bind_Ok in H as (r3 & w3 & H3 & H).
  apply pay_inv in H3 as (Hpay & Hmv & E3); [|by eapply ledger_token_at|done|by rewrite (ledger_kind _ _ _ L2)|by eapply net_not_token].
  rewrite (eff_bal _ _ _ _ _ _ E12) in Hpay. unfold zero2, credit in Hpay. rewrite (decide_False (P := t = _)) in Hpay by done.
  pose proof (eff_trans _ _ _ _ _ _ _ _ _ _ _ E12 E3) as E13. clear E12 E3.
  apply bind_Ok in H as (u3 & w4 & H3 & H). mrun H3.
  pose proof (eff_trans _ _ _ _ _ _ _ _ _ _ _ E13 (eff_log1 w3 C (EvConversion F t N v x0 fee))) as E3. clear E13.
  pose proof (eff_ledger _ _ _ _ _ _ E3) as L3. set (w4 := wlog C _ w3) in *.
  assert (conv_at w4 C) as HC3 by (by eapply ledger_conv).
  apply bind_Ok in H as (s4 & w5 & H4 & H). apply token_supply_inv in H4 as [-> ->]; [|done].
  apply bind_Ok in H as (u5 & w5 & H5 & H). apply price_inv in H5 as ->; [|done|by eapply ledger_token_at].
  apply ret_Ok in H as [-> ->].
  exists fee. do 4 (split; [done|]). fold C in Hx, Hpay. split; [lia|]. split; [lia|]. split; [by apply (ledger_movable _ _ _ L2)|]. split; [done|].
  pose proof (eff_trans _ _ _ _ _ _ _ _ _ _ _ E3 (eff_log1 w4 C (EvPriceDataUpdate t (supply_of w4 (token_of w4 C)) (reserve w4 C t) (cn_weight (connector_of w4 C t))))) as E.
  assert (supply_of w4 F = supply_of w F - v) as ES.
  { rewrite (eff_sup _ _ _ _ _ _ E3). unfold zero1. case_decide; [lia|done]. }
  assert (C <> N) as HCN. { intros E0. destruct HC as (_ & G & _). fold C in G. rewrite E0 in G. congruence. }
  assert (reserve w4 C t = reserve w C t - x0) as ER.
  { unfold reserve. rewrite (eff_conn _ _ _ _ _ _ E3). unfold add_virtual at 1. cbn [cn_venabled].
    destruct (cn_venabled (connector_of w C t)) eqn:Ev.
    - unfold add_virtual. cbn [cn_virtual]. unfold credit, zero2. rewrite !decide_True by done. lia.
    - rewrite (eff_bal _ _ _ _ _ _ E3). unfold credit, zero2. rewrite (decide_False (P := t = F)) by done.
      rewrite !(decide_True (P := t = t)) by done. rewrite !(decide_True (P := C = C)) by done. rewrite ?(decide_True (P := t = t)) by done. rewrite (decide_False (P := C = N)) by done. rewrite ?(decide_True (P := t = t)) by done. lia. }
  assert (cn_weight (connector_of w4 C t) = cn_weight (connector_of w C t)) as EW by by rewrite (eff_conn _ _ _ _ _ _ E3).
  eapply eff_ext; [exact E|..]; unfold zero1, zero2; intros; try (unfold C, F; lia).
  rewrite (ledger_token _ _ _ L3). fold F. rewrite ES, ER, EW. unfold C, F. cbn [app]. done.
Qed.

Lemma cross_eff f c w N from t v min x w' : conv_at w (c_self c) -> token_at w from -> token_at w t ->
  t <> token_of w (c_self c) -> from <> t -> is_contract N = true -> kind_at w N = Some KNet ->
  convert_cross (exec adv f) c N from t v min w = Ok (x, w') ->
  let C := c_self c in let F := token_of w C in
  exists fee, active w C /\ is_connector w C from /\ is_connector w C t /\ cn_penabled (connector_of w C t) = true /\
    cross_quote w (c_self c) from t v v = Some (x, fee) /\ min <= x /\ 0 <= x <= balance_of w t C /\ movable w t /\
    x < reserve w C t - sel (cn_venabled (connector_of w C t)) x /\
    eff w w' (fun X a => credit t C (- x) X a + credit t N x X a) zero1
      (fun X b => credit C from (sel (cn_venabled (connector_of w C from)) v) X b + credit C t (sel (cn_venabled (connector_of w C t)) (- x)) X b)
      [(C, EvPriceDataUpdate t (supply_of w F) (reserve w C t - x) (cn_weight (connector_of w C t)));
       (C, EvPriceDataUpdate from (supply_of w F) (reserve w C from + sel (cn_venabled (connector_of w C from)) v) (cn_weight (connector_of w C from)));
       (C, EvConversion from t N v x fee); (t, EvTransfer C N x data_result)].
Proof.
  intros HC Hf Ht HtF Hft HN1 HN2 H C F. unfold convert_cross in H.
  apply bind_Ok in H as ([x0 fee] & w0 & H0 & H). apply cross_inv in H0 as ((Ha & Hs1 & Hs & Hp & Hq) & ->); [|done..].
  apply bind_Ok in H as (u & w0 & H0 & H). mrun H0. bools.
  apply bind_Ok in H as (sc & w0 & H0 & H). apply this_Ok in H0 as [Hsc ->].
  apply bind_Ok in H as (u0 & w1 & H1 & H).
  assert (eff w w1 zero2 zero1 (credit C from (sel (cn_venabled (connector_of w C from)) v)) []) as E1.
  { rewrite (connector_of_sc _ _ _ _ Hsc). destruct (cn_venabled (conn sc from)).
    - apply modify_Ok in H1 as (sc' & Hsc' & ->). assert (sc' = sc) as -> by congruence.
      eapply eff_ext; [exact (eff_virtual w C sc from (cn_virtual (conn sc from) + v) Hsc)|done|done| |done].
      intros X b. unfold credit. repeat case_decide; lia.
    - apply ret_Ok in H1 as [_ ->]. eapply eff_ext; [apply eff_refl|done|done| |done]. intros X b. unfold credit, zero2. by repeat case_decide. }
  clear H1. 
  apply bind_Ok in H as (sc1 & w0 & H0 & H). apply this_Ok in H0 as [Hsc1 ->].
  apply bind_Ok in H as (u1 & w2 & H1 & H).
  assert (connector_of w1 C t = connector_of w C t) as ECt.
  { rewrite (eff_conn _ _ _ _ _ _ E1). unfold credit. rewrite (decide_False (P := t = from)) by done.
    rewrite decide_True by done. apply add_virtual_0. }
  assert (eff w1 w2 zero2 zero1 (credit C t (sel (cn_venabled (connector_of w C t)) (- x0))) []) as E2.
  { rewrite <- ECt, (connector_of_sc _ _ _ _ Hsc1). destruct (cn_venabled (conn sc1 t)).
    - apply bind_Ok in H1 as (vv & w0 & H0 & H1). apply safe_sub_Ok in H0 as (_ & -> & ->).
      apply modify_Ok in H1 as (sc' & Hsc' & ->). assert (sc' = sc1) as -> by congruence.
      eapply eff_ext; [exact (eff_virtual w1 C sc1 t (cn_virtual (conn sc1 t) - x0) Hsc1)|done|done| |done].
      intros X b. unfold credit. repeat case_decide; lia.
    - apply ret_Ok in H1 as [_ ->]. eapply eff_ext; [apply eff_refl|done|done| |done]. intros X b. unfold credit, zero2. by repeat case_decide. }
  clear H1. pose proof (eff_trans _ _ _ _ _ _ _ _ _ _ _ E1 E2) as E12. clear E1 E2. pose proof (eff_ledger _ _ _ _ _ _ E12) as L2.
  assert (reserve w2 C t = reserve w C t - sel (cn_venabled (connector_of w C t)) x0) as ER2.
  { unfold reserve. rewrite (eff_conn _ _ _ _ _ _ E12). unfold add_virtual at 1. cbn [cn_venabled].
    destruct (cn_venabled (connector_of w C t)) eqn:Ev.
    - unfold add_virtual. cbn [cn_virtual]. unfold credit, zero2. rewrite !(decide_True (P := C = C)) by done.
      rewrite !(decide_True (P := t = t)), !(decide_False (P := t = from)) by done. lia.
    - rewrite (eff_bal _ _ _ _ _ _ E12). unfold zero2. lia. }
  apply bind_Ok in H as (s4 & w4 & H4 & H). apply connector_balance_inv in H4 as (_ & -> & ->); [|first [by eapply ledger_conv|by eapply ledger_token_at]..].
  apply bind_Ok in H as (u2 & w0 & H0 & H). mrun H0. bools. fold C in Hreq0. rewrite ER2 in Hreq0.
  apply bind_Ok in H as (r3 & w3 & H3 & H).
  apply pay_inv in H3 as (Hpay & Hmv & E3); [|by eapply ledger_token_at|done|by rewrite (ledger_kind _ _ _ L2)|by eapply net_not_token].
  rewrite (eff_bal _ _ _ _ _ _ E12) in Hpay. unfold zero2 in Hpay.
  pose proof (eff_trans _ _ _ _ _ _ _ _ _ _ _ E12 E3) as E13. clear E12 E3.
  apply bind_Ok in H as (u3 & w4 & H3 & H). mrun H3.
  pose proof (eff_trans _ _ _ _ _ _ _ _ _ _ _ E13 (eff_log1 w3 C (EvConversion from t N v x0 fee))) as E3. clear E13.
  pose proof (eff_ledger _ _ _ _ _ _ E3) as L3. set (w4 := wlog C _ w3) in *.
  assert (conv_at w4 C) as HC3 by (by eapply ledger_conv).
  apply bind_Ok in H as (s4 & w5 & H4 & H). apply token_supply_inv in H4 as [-> ->]; [|done].
  apply bind_Ok in H as (u5 & w5 & H5 & H). apply price_inv in H5 as ->; [|done|by eapply ledger_token_at].
  apply bind_Ok in H as (u6 & w5 & H5 & H). apply price_inv in H5 as ->; [|exact HC3|exact (ledger_token_at _ _ _ L3 Ht)].
  apply ret_Ok in H as [-> ->].
  exists fee. do 6 (split; [done|]). fold C in Hpay. split; [lia|]. split; [by apply (ledger_movable _ _ _ L2)|]. split; [done|].
  set (e1 := EvPriceDataUpdate from _ _ _). set (e2 := EvPriceDataUpdate t _ _ _).
  pose proof (eff_trans _ _ _ _ _ _ _ _ _ _ _ (eff_trans _ _ _ _ _ _ _ _ _ _ _ E3 (eff_log1 w4 C e1)) (eff_log1 (wlog C e1 w4) C e2)) as E.
  assert (C <> N) as HCN. { intros E0. destruct HC as (_ & G & _). fold C in G. rewrite E0 in G. congruence. }
  assert (supply_of w4 F = supply_of w F) as ES.
  { rewrite (eff_sup _ _ _ _ _ _ E3). unfold zero1. lia. }
  assert (reserve w4 C t = reserve w C t - x0) as ER.
  { unfold reserve. rewrite (eff_conn _ _ _ _ _ _ E3). unfold add_virtual at 1. cbn [cn_venabled].
    destruct (cn_venabled (connector_of w C t)) eqn:Ev.
    - unfold add_virtual. cbn [cn_virtual]. unfold credit, zero2. rewrite !(decide_True (P := C = C)) by done.
      rewrite !(decide_True (P := t = t)), !(decide_False (P := t = from)) by done. lia.
    - rewrite (eff_bal _ _ _ _ _ _ E3). unfold credit, zero2.
      rewrite !(decide_True (P := t = t)) by done. rewrite !(decide_True (P := C = C)) by done. rewrite ?(decide_True (P := t = t)) by done. rewrite (decide_False (P := C = N)) by done. rewrite ?(decide_True (P := t = t)) by done. lia. }
  assert (reserve w4 C from = reserve w C from + sel (cn_venabled (connector_of w C from)) v) as ERf.
  { unfold reserve. rewrite (eff_conn _ _ _ _ _ _ E3). unfold add_virtual at 1. cbn [cn_venabled].
    destruct (cn_venabled (connector_of w C from)) eqn:Ev.
    - unfold add_virtual. cbn [cn_virtual]. unfold credit, zero2. rewrite !(decide_True (P := C = C)) by done.
      rewrite !(decide_True (P := from = from)), !(decide_False (P := from = t)) by done. lia.
    - rewrite (eff_bal _ _ _ _ _ _ E3). unfold credit, zero2.
      rewrite !(decide_False (P := from = t)) by done. lia. }
  assert (forall b, cn_weight (connector_of w4 C b) = cn_weight (connector_of w C b)) as EW by (intros b; by rewrite (eff_conn _ _ _ _ _ _ E3)).
  eapply eff_ext; [exact E|..]; unfold zero1, zero2; intros; try (unfold C, F; lia).
  unfold e1, e2. fold C. change (wlog C (EvConversion from t N v x0 fee) w3) with w4.
  change (reserve (wlog C ?e w4)) with (reserve w4). change (connector_of (wlog C ?e w4)) with (connector_of w4).
  rewrite (ledger_token _ _ _ L3). fold C. fold F. rewrite ES, ER, ERf, !EW. done.
Qed.

(* what one conversion moves: v of [from] goes to the converter (or is burnt), x of [to] comes from it (or is minted) *)
Definition trade_balances (N C F from to : addr) (v x : Z) (X a : addr) : Z :=
  credit from N (- v) X a + (if decide (from = F) then 0 else credit from C v X a)
  + credit to N x X a + (if decide (to = F) then 0 else credit to C (- x) X a).
Definition trade_supply (F from to : addr) (v x : Z) (X : addr) : Z :=
  if decide (X = F) then (if decide (to = F) then x else 0) - (if decide (from = F) then v else 0) else 0.
Definition trade_virtual (w : world) (C F from to : addr) (v x : Z) (X t : addr) : Z :=
  (if decide (from = F) then 0 else credit C from (sel (cn_venabled (connector_of w C from)) v) X t)
  + (if decide (to = F) then 0 else credit C to (sel (cn_venabled (connector_of w C to)) (- x)) X t).
(* the reserve of the source connector as the executed conversion sees it *)
Definition used (w : world) (C from : addr) (v : Z) : Z := sel (cn_venabled (connector_of w C from)) v.

Lemma not_icx_conv w T C : token_at w T -> conv_at w C -> T <> C.
Proof. intros [_ H] (_ & G & _) ->. unfold is_token in H. rewrite G in H. by destruct H as [?|[?|?]]. Qed.

(* the events of one conversion, newest first, after the transfer of the amount v to the converter *)
Definition price_event (w' : world) (C t : addr) : addr * event :=
  (C, EvPriceDataUpdate t (supply_of w' (token_of w' C)) (reserve w' C t) (cn_weight (connector_of w' C t))).
Definition trade_events (w' : world) (N C F from to : addr) (v x fee : Z) : list (addr * event) :=
  if decide (to = F) then [price_event w' C from; (C, EvConversion from to N v x fee); (F, EvTransfer F N x data_none); (F, EvIssuance x)]
  else if decide (from = F) then
    [price_event w' C to; (C, EvConversion from to N v x fee); (to, EvTransfer C N x data_result); (F, EvTransfer C F v data_none); (F, EvDestruction v)]
  else [price_event w' C to; price_event w' C from; (C, EvConversion from to N v x fee); (to, EvTransfer C N x data_result)].
Lemma eff_reserve w w' db ds dv evs C t : eff w w' db ds dv evs ->
  reserve w' C t = reserve w C t + (if cn_venabled (connector_of w C t) then dv C t else db t C).
Proof. intros E. unfold reserve. rewrite (eff_conn _ _ _ _ _ _ E), (eff_bal _ _ _ _ _ _ E). unfold add_virtual. cbn. destruct (cn_venabled _); lia. Qed.

Theorem hop f ro N T C v d w r w' : token_at w T -> conv_at w C ->
  is_contract (registry_of w C) = true -> kind_at w (registry_of w C) = Some KReg ->
  is_contract N = true -> kind_at w N = Some KNet -> owner_of w C <> N ->
  (forall to min, conv_request d = Some (to, min) -> token_at w to) ->
  exec adv f ro N T 0 (MTransfer C v (Some d)) w = Ok (r, w') ->
  let F := token_of w C in
  0 < v <= balance_of w T N /\ movable w T /\ registered w (registry_of w C) "Network" = N /\ conversions_enabled w C = true /\ active w C /\
  exists to min x fee, conv_request d = Some (to, min) /\ 0 < min <= x /\ T <> to /\
    (if decide (to = F) then is_connector w C T /\ cn_penabled (connector_of w C T) = true /\ purchase_quote w C T v (used w C T v) = Some (x, fee)
     else if decide (T = F) then is_connector w C to /\ sale_quote w C to v = Some (x, fee) /\
        (x < reserve w C to \/ x = reserve w C to /\ v = supply_of w F) /\ x <= balance_of w to C /\ movable w to
     else is_connector w C T /\ is_connector w C to /\ cn_penabled (connector_of w C to) = true /\ cross_quote w C T to v (used w C T v) = Some (x, fee) /\
        x < reserve w C to - sel (cn_venabled (connector_of w C to)) x /\ x <= balance_of w to C /\ movable w to) /\
    eff w w' (trade_balances N C F T to v x) (trade_supply F T to v x) (trade_virtual w C F T to v x)
       ((T, EvTransfer N C v d) :: trade_events w' N C F T to v x fee).
Proof.
  intros HT HC HR1 HR2 HN1 HN2 HoN Hto H F. pose proof HT as [HT1 HT2]. destruct (token_sc _ _ HT2) as (sc & Hsc & Hk).
  destruct f as [|f]; [done|]. assert (s_kind sc <> KAdv) as HnA by (by intros E; rewrite E in Hk).
  destruct (proj1 (exec_honest_Ok adv f ro N T _ w sc (s_kind sc) r w' HT1 Hsc eq_refl HnA) H) as [_ H1]. clear H.
  eapply token_transfer_inv in H1; [|done|exact Hsc]. cbn [c_self c_sender c_ro default] in H1.
  destruct H1 as (Hx & Hmv & _ & -> & r2 & w2 & H & ->).
  assert (movable w T) as HmT. { unfold movable, kind_at, transferable, var. rewrite Hsc. cbn. intros [=]. by apply Hmv. }
  pose proof HC as (HC1 & HC2 & HF1 & HF2). rewrite HC1 in H.
  rewrite <- (balance_of_sc _ _ _ N Hsc) in Hx.
  pose proof (eff_move w T sc N C v Hsc) as E0. set (w1 := wupd T _ [] w) in *. pose proof (eff_ledger _ _ _ _ _ _ E0) as L0.
  destruct f as [|f]; [done|].
  assert (conv_at w1 C) as HC' by (by eapply ledger_conv). destruct (conv_sc _ _ HC') as (sc1 & Hsc1 & K1).
  destruct (proj1 (exec_honest_Ok adv f _ _ _ _ _ _ _ _ _ HC1 Hsc1 K1 ltac:(done)) H) as [_ H1]. clear H.
  cbn -[conv_tokenFallback] in H1.
  assert (token_of w1 C = F) as EF by (by apply ledger_token).
  assert (T <> C) as HTC by (by eapply not_icx_conv).
  apply conv_fallback_inv in H1; cbn [c_self c_sender]; [|done|by rewrite (ledger_registry _ _ _ L0)|by rewrite (ledger_registry _ _ _ L0), (ledger_kind _ _ _ L0)].
  cbn [c_self c_sender] in H1. rewrite (ledger_owner _ _ _ L0), (ledger_registered _ _ _ _ L0), (ledger_registry _ _ _ L0), (ledger_enabled _ _ _ L0), EF in H1.
  destruct H1 as (Hv & [(? & _)|(Hreg & to & min & x & Hd & -> & Hen & Hmin & Hne & H)]); [done|].
  split; [lia|]. split; [done|]. split; [done|]. split; [done|].
  pose proof (Hto _ _ Hd) as Ht. assert (token_at w1 to) as Ht' by (by eapply ledger_token_at).
  assert (token_at w1 T) as HT' by (by eapply ledger_token_at). assert (kind_at w1 N = Some KNet) as HN2' by (by rewrite (ledger_kind _ _ _ L0)).
  assert (forall a, connector_of w1 C a = connector_of w C a) as Ecn.
  { intros a. rewrite (eff_conn _ _ _ _ _ _ E0). unfold zero2. apply add_virtual_0. }
  assert (forall X, supply_of w1 X = supply_of w X) as Esup. { intros X. rewrite (eff_sup _ _ _ _ _ _ E0). unfold zero1. lia. }
  assert (C <> N) as HCN by (intros ->; congruence).
  assert (reserve w1 C to = reserve w C to) as Ert.
  { unfold reserve. rewrite Ecn. destruct (cn_venabled _); [done|]. rewrite (eff_bal _ _ _ _ _ _ E0).
    unfold credit. rewrite !(decide_False (P := to = T)) by done. lia. }
  assert (reserve w1 C T - v = reserve w C T - used w C T v) as ErT.
  { unfold reserve, used. rewrite Ecn. destruct (cn_venabled _); [done|]. rewrite (eff_bal _ _ _ _ _ _ E0).
    unfold credit. rewrite !(decide_True (P := T = T)) by done. rewrite (decide_True (P := C = C)), (decide_False (P := C = N)) by done. lia. }
  assert (balance_of w1 to C = balance_of w to C) as Ebt.
  { rewrite (eff_bal _ _ _ _ _ _ E0). unfold credit. rewrite !(decide_False (P := to = T)) by done. lia. }
  assert (movable w1 to -> movable w to) as Emv by (apply (ledger_movable _ _ _ L0)).
  assert (active w1 C <-> active w C) as Eact by (by apply ledger_active).
  destruct (decide (to = F)) as [EtF|NtF]; [|destruct (decide (T = F)) as [ETF|NTF]].
  - apply buy_inv in H; cbn [c_self]; [|done|done|congruence]. cbn [c_self] in H. rewrite EF, Ecn, Esup in H.
    destruct H as (fee & Ha & Hs & Hp & Hq & Hm & Hx0 & E1).
    split; [tauto|]. exists to, min, x, fee. split; [done|]. split; [lia|]. split; [done|]. split.
    { rewrite decide_True by done. unfold is_connector in *. rewrite Ecn in Hs. split; [done|]. split; [done|]. unfold purchase_quote in *. rewrite EF, Ecn, Esup, ErT, (ledger_fee _ _ _ L0) in Hq. done. }
    eassert (eff w _ (trade_balances N C F T to v x) (trade_supply F T to v x) (trade_virtual w C F T to v x) _) as E.
    { eapply eff_ext; [eapply eff_trans; [eapply eff_trans; [exact E0|exact E1]|apply eff_log1]|..].
      - intros X a. unfold trade_balances, zero2. rewrite (decide_True (P := to = F)), (decide_False (P := T = F)) by (done || congruence). subst to. lia.
      - intros X. unfold trade_supply, zero1. rewrite (decide_True (P := to = F)), (decide_False (P := T = F)) by (done || congruence). case_decide; lia.
      - intros X a. unfold trade_virtual, zero2. rewrite (decide_True (P := to = F)), (decide_False (P := T = F)) by (done || congruence). lia.
      - reflexivity. }
    eapply eff_ext; [exact E|done|done|done|]. unfold trade_events, price_event. rewrite (decide_True (P := to = F)) by done.
    rewrite (ledger_token _ _ _ (eff_ledger _ _ _ _ _ _ E)). fold F. rewrite ?(eff_reserve _ _ _ _ _ _ _ _ E), (eff_sup _ _ _ _ _ _ E), !(eff_conn _ _ _ _ _ _ E).
    unfold trade_supply, trade_balances, trade_virtual. cbn [add_virtual cn_weight id].
    rewrite ?(decide_True (P := F = F)) by done. cbn [app]. unfold used in ErT. unfold credit.
    repeat match goal with |- cons _ _ = cons _ _ => f_equal | |- pair _ _ = pair _ _ => f_equal | |- EvPriceDataUpdate _ _ _ _ = _ => f_equal
      | |- EvConversion _ _ _ _ _ _ = _ => f_equal end; repeat case_decide; try congruence; destruct (cn_venabled (connector_of w C T)), (cn_venabled (connector_of w C to)); lia.
  - apply sell_inv in H; cbn [c_self]; [|done|done|congruence|done|done]. cbn [c_self] in H. rewrite EF, Ecn, Esup in H.
    destruct H as (fee & Ha & Hs & Hq & Hm & Hv1 & Hx0 & Hm2 & Hdep & E1). rewrite Ert in Hdep. rewrite Ebt in Hx0.
    split; [tauto|]. exists to, min, x, fee. split; [done|]. split; [lia|]. split; [done|]. split.
    { rewrite decide_False by done. unfold is_connector in *. rewrite Ecn in Hs. split; [done|]. split; [|split; [done|split; [lia|auto]]]. unfold sale_quote in *. rewrite EF, Ecn, Esup, Ert, (ledger_fee _ _ _ L0) in Hq. done. }
    eassert (eff w _ (trade_balances N C F T to v x) (trade_supply F T to v x) (trade_virtual w C F T to v x) _) as E.
    { eapply eff_ext; [eapply eff_trans; [eapply eff_trans; [exact E0|exact E1]|apply eff_log1]|..].
      - intros X a. unfold trade_balances, zero2. rewrite (decide_False (P := to = F)), (decide_True (P := T = F)) by (done || congruence). rewrite ETF.
        unfold credit. repeat case_decide; lia.
      - intros X. unfold trade_supply, zero1. rewrite (decide_False (P := to = F)), (decide_True (P := T = F)) by (done || congruence). case_decide; lia.
      - intros X a. unfold trade_virtual, zero2. rewrite (decide_False (P := to = F)), (decide_True (P := T = F)) by (done || congruence). lia.
      - reflexivity. }
    eapply eff_ext; [exact E|done|done|done|]. unfold trade_events, price_event. rewrite (decide_False (P := to = F)), (decide_True (P := T = F)) by done.
    rewrite (ledger_token _ _ _ (eff_ledger _ _ _ _ _ _ E)). fold F. rewrite ?(eff_reserve _ _ _ _ _ _ _ _ E), (eff_sup _ _ _ _ _ _ E), !(eff_conn _ _ _ _ _ _ E).
    unfold trade_supply, trade_balances, trade_virtual. cbn [add_virtual cn_weight id].
    rewrite ?(decide_True (P := F = F)) by done. cbn [app]. unfold used in ErT. unfold credit.
    repeat match goal with |- cons _ _ = cons _ _ => f_equal | |- pair _ _ = pair _ _ => f_equal | |- EvPriceDataUpdate _ _ _ _ = _ => f_equal
      | |- EvConversion _ _ _ _ _ _ = _ => f_equal end; repeat case_decide; try congruence; destruct (cn_venabled (connector_of w C T)), (cn_venabled (connector_of w C to)); lia.
  - apply cross_eff in H; cbn [c_self]; [|done|done|done|congruence|done|done|done]. cbn [c_self] in H. rewrite EF, !Ecn, Esup in H.
    destruct H as (fee & Ha & Hs1 & Hs & Hp & Hq & Hm & Hx0 & Hm2 & Hdep & E1). rewrite Ert in Hdep. rewrite Ebt in Hx0.
    split; [tauto|]. exists to, min, x, fee. split; [done|]. split; [lia|]. split; [done|]. split.
    { rewrite !decide_False by done. unfold is_connector in *. rewrite Ecn in Hs, Hs1. do 3 (split; [done|]). split; [|split; [done|split; [lia|auto]]]. unfold cross_quote in *. rewrite !Ecn, Ert, ErT, (ledger_fee _ _ _ L0) in Hq. done. }
    eassert (eff w _ (trade_balances N C F T to v x) (trade_supply F T to v x) (trade_virtual w C F T to v x) _) as E.
    { eapply eff_ext; [eapply eff_trans; [eapply eff_trans; [exact E0|exact E1]|apply eff_log1]|..].
      - intros X a. unfold trade_balances, zero2. rewrite (decide_False (P := to = F)), (decide_False (P := T = F)) by done. lia.
      - intros X. unfold trade_supply, zero1. rewrite (decide_False (P := to = F)), (decide_False (P := T = F)) by done. case_decide; lia.
      - intros X a. unfold trade_virtual, zero2. rewrite (decide_False (P := to = F)), (decide_False (P := T = F)) by done. lia.
      - reflexivity. }
    eapply eff_ext; [exact E|done|done|done|]. unfold trade_events, price_event. rewrite (decide_False (P := to = F)), (decide_False (P := T = F)) by done.
    rewrite (ledger_token _ _ _ (eff_ledger _ _ _ _ _ _ E)). fold F. rewrite ?(eff_reserve _ _ _ _ _ _ _ _ E), (eff_sup _ _ _ _ _ _ E), !(eff_conn _ _ _ _ _ _ E).
    unfold trade_supply, trade_balances, trade_virtual. cbn [add_virtual cn_weight id].
    rewrite ?(decide_True (P := F = F)) by done. cbn [app]. unfold used in ErT. unfold credit.
    repeat match goal with |- cons _ _ = cons _ _ => f_equal | |- pair _ _ = pair _ _ => f_equal | |- EvPriceDataUpdate _ _ _ _ = _ => f_equal
      | |- EvConversion _ _ _ _ _ _ = _ => f_equal end; repeat case_decide; try congruence; destruct (cn_venabled (connector_of w C T)), (cn_venabled (connector_of w C to)); lia.
Qed.
End hop.
