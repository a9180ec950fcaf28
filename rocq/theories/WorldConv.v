(* Converters in an environment of genuine contracts: activity, balances, quotes. *)
From Coq Require Import String Ascii ZArith Lia.
From stdpp Require Import base countable list numbers strings gmap relations.
From Verif Require Import Res FormulaConsts FormulaModel Codec World WorldBasics WorldSteps WorldExec WorldSpec WorldInv WorldMoney WorldAuth WorldNet WorldCalls WorldViews.
Local Open Scope Z_scope.
Local Open Scope M_scope.

Lemma token_of_sc w c sc : w_scores w !! c = Some sc -> token_of w c = s_token sc.
Proof. apply var_sc. Qed.
Lemma owner_of_sc w c sc : w_scores w !! c = Some sc -> owner_of w c = s_owner sc.
Proof. apply var_sc. Qed.
Lemma connector_of_sc w c sc t : w_scores w !! c = Some sc -> connector_of w c t = conn sc t.
Proof. unfold connector_of, var. by intros ->. Qed.
Lemma fee_of_sc w c sc : w_scores w !! c = Some sc -> fee_of w c = s_fee sc.
Proof. apply var_sc. Qed.
Lemma conv_sc w c : conv_at w c -> exists sc, w_scores w !! c = Some sc /\ s_kind sc = KConv.
Proof. intros (_ & H & _). by apply kind_at_Some. Qed.
Lemma flex_is_token w t : kind_at w t = Some KFlex -> is_token w t.
Proof. intros H. right. by right. Qed.
Lemma flex_is_owned w t : kind_at w t = Some KFlex -> is_owned w t.
Proof. intros H. exists KFlex. done. Qed.
Lemma conv_token_at w c : conv_at w c -> token_at w (token_of w c).
Proof. intros (_ & _ & H1 & H2). split; [done|]. by apply flex_is_token. Qed.

Lemma Ok_pair_iff {A} (m : M A) w a w0 (b : A) (w' : world) : m w = Ok (a, w0) -> (m w = Ok (b, w') <-> b = a /\ w' = w0).
Proof. intros E. rewrite E. split; [intros [= <- <-]; done|by intros [-> ->]]. Qed.

(* the fee split *)
Definition fee_split (fee calculated magnitude : Z) : option (Z * Z) :=
  let final := final_amount fee calculated magnitude in
  if final <=? calculated then Some (final, calculated - final) else None.
(* quotes; adj is what the code subtracts from the reserve *)
Definition purchase_quote (w : world) (C t : addr) (amount adj : Z) : option (Z * Z) :=
  match calculate_purchase_return (supply_of w (token_of w C)) (reserve w C t - adj) (cn_weight (connector_of w C t)) amount with
  | Ok x => fee_split (fee_of w C) x 1 | Err _ => None end.
Definition sale_quote (w : world) (C t : addr) (amount : Z) : option (Z * Z) :=
  match calculate_sale_return (supply_of w (token_of w C)) (reserve w C t) (cn_weight (connector_of w C t)) amount with
  | Ok x => fee_split (fee_of w C) x 1 | Err _ => None end.
Definition cross_quote (w : world) (C from to : addr) (amount adj : Z) : option (Z * Z) :=
  match calculate_cross_connector_return (reserve w C from - adj) (cn_weight (connector_of w C from))
          (reserve w C to) (cn_weight (connector_of w C to)) amount with
  | Ok x => fee_split (fee_of w C) x 2 | Err _ => None end.

Ltac conn_rw := match goal with H : w_scores ?w !! ?C = Some _ |- context [connector_of ?w ?C _] => rewrite !(connector_of_sc _ _ _ _ H) end.
Section conv.
Variable adv : adversary.
Variables (f : nat) (c : ctx) (w : world).
Notation C := (c_self c).
Notation F := (token_of w C).
Hypothesis HC : conv_at w C.

(* calls answered; the fuel may run out *)
Lemma ecall_answers t m r r' w' : answers adv w t m r -> ecall (exec adv f) c t m w = Ok (r', w') -> r' = r /\ w' = w.
Proof. intros Ha H. by eapply answers_inv. Qed.

Lemma is_active_inv b w' : is_active (exec adv f) c w = Ok (b, w') -> b = bool_decide (active w C) /\ w' = w.
Proof.
  intros H. destruct (conv_sc _ _ HC) as (sc & Hsc & K). unfold is_active in H.
  apply bind_Ok in H as (sc0 & w0 & H0 & H). apply this_Ok in H0 as [H0 ->].
  apply bind_Ok in H as (r & w0 & H1 & H).
  destruct HC as (_ & _ & HF & HK). rewrite (token_of_sc _ _ _ H0) in HF, HK.
  destruct (owned_answers adv w _ HF (flex_is_owned _ _ HK)) as [Ha _].
  destruct (ecall_answers _ _ _ _ _ Ha H1) as [-> ->]. apply ret_Ok in H as [-> ->].
  split; [|done]. apply bool_decide_ext. unfold active. by rewrite (token_of_sc _ _ _ H0).
Qed.
Lemma token_supply_inv z w' : token_supply (exec adv f) c w = Ok (z, w') -> z = supply_of w F /\ w' = w.
Proof.
  intros H. unfold token_supply in H.
  apply bind_Ok in H as (sc0 & w0 & H0 & H). apply this_Ok in H0 as [H0 ->].
  apply bind_Ok in H as (r & w0 & H1 & H).
  destruct (conv_token_at _ _ HC) as [HF HK]. rewrite (token_of_sc _ _ _ H0) in HF, HK |- *.
  destruct (token_answers adv w _ HF HK) as (_ & _ & _ & Ha & _).
  destruct (ecall_answers _ _ _ _ _ Ha H1) as [-> ->]. apply as_int_Ok in H as [[= <-] ->]. done.
Qed.
Lemma balance_inv t z w' : token_at w t ->
  (r <~ ecall (exec adv f) c t (MBalanceOf C); as_int r) w = Ok (z, w') -> z = balance_of w t C /\ w' = w.
Proof.
  intros [Ht HT] H. apply bind_Ok in H as (r & w0 & H1 & H).
  destruct (token_answers adv w _ Ht HT) as (_ & _ & _ & _ & Ha).
  destruct (ecall_answers _ _ _ _ _ (Ha C) H1) as [-> ->]. apply as_int_Ok in H as [[= <-] ->]. done.
Qed.
Lemma connector_balance_inv t z w' : token_at w t -> getConnectorBalance (exec adv f) c t w = Ok (z, w') ->
  is_connector w C t /\ z = reserve w C t /\ w' = w.
Proof.
  intros Ht H. unfold getConnectorBalance, require_valid_connector in H.
  apply bind_Ok in H as (u & w0 & H0 & H). mrun H0.
  apply bind_Ok in H as (sc0 & w0 & H0 & H). mrun H0. scunify.
  unfold is_connector, reserve. conn_rw. split; [done|].
  destruct (cn_venabled (conn a t)); [by apply ret_Ok in H|]. by eapply balance_inv.
Qed.
Lemma with_fee_inv x k r w' : with_fee c x k w = Ok (r, w') <-> 0 <= k /\ fee_split (fee_of w C) x k = Some r /\ w' = w.
Proof.
  destruct (conv_sc _ _ HC) as (sc & Hsc & K).
  unfold with_fee, getFinalAmount, fee_split. rewrite (fee_of_sc _ _ _ Hsc). split.
  - intros H. mrun H. bools. split; [done|]. destruct (Z.leb_spec (final_amount (s_fee sc) x k) x); [done|lia].
  - intros (Hk & Hf & ->). destruct (Z.leb_spec (final_amount (s_fee sc) x k) x); [|done]. injection Hf as <-.
    mbuild. apply safe_sub_Ok. split; [done|]. split; reflexivity.
Qed.

Lemma purchase_inv t amount b r w' : token_at w t -> get_purchase_return (exec adv f) c t amount b w = Ok (r, w') ->
  (active w C /\ is_connector w C t /\ cn_penabled (connector_of w C t) = true /\
   purchase_quote w C t amount (if b then amount else 0) = Some r) /\ w' = w.
Proof.
  intros Ht H. destruct (conv_sc _ _ HC) as (sc & Hsc & K).
  unfold get_purchase_return, require_active, require_valid_connector in H.
  apply bind_Ok in H as (u & w0 & H0 & H). apply bind_Ok in H0 as (ac & w1 & H1 & H0).
  apply is_active_inv in H1 as [-> ->]. mrun H0. bools. clear u.
  apply bind_Ok in H as (u & w0 & H0 & H). mrun H0.
  apply bind_Ok in H as (sc0 & w0 & H0 & H). mrun H0.
  apply bind_Ok in H as (u' & w0 & H0 & H). mrun H0.
  apply bind_Ok in H as (z & w0 & H0 & H). apply token_supply_inv in H0 as [-> ->].
  apply bind_Ok in H as (z & w0 & H0 & H). apply connector_balance_inv in H0 as (_ & -> & ->); [|done].
  apply bind_Ok in H as (sc1 & w0 & H0 & H). mrun H0. scunify.
  apply bind_Ok in H as (z & w0 & H0 & H). apply lift_Ok in H0 as [H0 ->].
  apply with_fee_inv in H as (_ & H & ->).
  unfold is_connector, purchase_quote. conn_rw.
  repeat split; try done. 
  replace (reserve w C t - (if b then amount else 0)) with (if b then reserve w C t - amount else reserve w C t) by (destruct b; lia).
  by rewrite H0.
Qed.
Lemma sale_inv t amount r w' : token_at w t -> get_sale_return (exec adv f) c t amount w = Ok (r, w') ->
  (active w C /\ is_connector w C t /\ sale_quote w C t amount = Some r) /\ w' = w.
Proof.
  intros Ht H. destruct (conv_sc _ _ HC) as (sc & Hsc & K).
  unfold get_sale_return, require_active, require_valid_connector in H.
  apply bind_Ok in H as (u & w0 & H0 & H). apply bind_Ok in H0 as (ac & w1 & H1 & H0).
  apply is_active_inv in H1 as [-> ->]. mrun H0. bools. clear u.
  apply bind_Ok in H as (u & w0 & H0 & H). mrun H0.
  apply bind_Ok in H as (z & w0 & H0 & H). apply token_supply_inv in H0 as [-> ->].
  apply bind_Ok in H as (z & w0 & H0 & H). apply connector_balance_inv in H0 as (_ & -> & ->); [|done].
  apply bind_Ok in H as (sc1 & w0 & H0 & H). mrun H0. scunify.
  apply bind_Ok in H as (z & w0 & H0 & H). apply lift_Ok in H0 as [H0 ->].
  apply with_fee_inv in H as (_ & H & ->).
  unfold is_connector, sale_quote. conn_rw.
  repeat split; try done. by rewrite H0.
Qed.
Lemma cross_inv from to amount b r w' : token_at w from -> token_at w to ->
  get_cross_connector_return (exec adv f) c from to amount b w = Ok (r, w') ->
  (active w C /\ is_connector w C from /\ is_connector w C to /\ cn_penabled (connector_of w C to) = true /\
   cross_quote w C from to amount (if b then amount else 0) = Some r) /\ w' = w.
Proof.
  intros Ht Ht' H. destruct (conv_sc _ _ HC) as (sc & Hsc & K).
  unfold get_cross_connector_return, require_active, require_valid_connector in H.
  apply bind_Ok in H as (u & w0 & H0 & H). apply bind_Ok in H0 as (ac & w1 & H1 & H0).
  apply is_active_inv in H1 as [-> ->]. mrun H0. bools. clear u.
  apply bind_Ok in H as (u & w0 & H0 & H). mrun H0.
  apply bind_Ok in H as (u' & w0 & H0 & H). mrun H0.
  apply bind_Ok in H as (sc0 & w0 & H0 & H). mrun H0.
  apply bind_Ok in H as (u2 & w0 & H0 & H). mrun H0.
  apply bind_Ok in H as (z & w0 & H0 & H). apply connector_balance_inv in H0 as (_ & -> & ->); [|done].
  apply bind_Ok in H as (z & w0 & H0 & H). apply connector_balance_inv in H0 as (_ & -> & ->); [|done].
  apply bind_Ok in H as (sc1 & w0 & H0 & H). mrun H0. scunify.
  apply bind_Ok in H as (z & w0 & H0 & H). apply lift_Ok in H0 as [H0 ->].
  apply with_fee_inv in H as (_ & H & ->).
  unfold is_connector, cross_quote. conn_rw.
  repeat split; try done. 
  replace (reserve w C from - (if b then amount else 0)) with (if b then reserve w C from - amount else reserve w C from) by (destruct b; lia).
  by rewrite H0.
Qed.
End conv.

(* with fuel the calls do succeed *)
Section conv2.
Variable adv : adversary.
Variables (f : nat) (c : ctx) (w : world).
Notation C := (c_self c).
Notation F := (token_of w C).
Hypothesis HC : conv_at w C.
Lemma ecall_ok t m r : answers adv w t m r -> ecall (exec adv (S f)) c t m w = Ok (r, w).
Proof. intros Ha. apply Ha. Qed.
Lemma is_active_ok : is_active (exec adv (S f)) c w = Ok (bool_decide (active w C), w).
Proof.
  destruct (conv_sc _ _ HC) as (sc & Hsc & K). unfold is_active.
  apply bind_Ok. exists sc, w. split; [by apply this_Ok|].
  destruct HC as (_ & _ & HF & HK). rewrite (token_of_sc _ _ _ Hsc) in HF, HK.
  destruct (owned_answers adv w _ HF (flex_is_owned _ _ HK)) as [Ha _].
  apply bind_Ok. exists (RAddr (owner_of w (s_token sc))), w. split; [by apply ecall_ok|].
  apply ret_Ok. split; [|done]. apply bool_decide_ext. unfold active. by rewrite (token_of_sc _ _ _ Hsc).
Qed.
Lemma token_supply_ok : token_supply (exec adv (S f)) c w = Ok (supply_of w F, w).
Proof.
  destruct (conv_sc _ _ HC) as (sc & Hsc & K). unfold token_supply.
  apply bind_Ok. exists sc, w. split; [by apply this_Ok|].
  destruct (conv_token_at _ _ HC) as [HF HK]. rewrite (token_of_sc _ _ _ Hsc) in HF, HK |- *.
  destruct (token_answers adv w _ HF HK) as (_ & _ & _ & Ha & _).
  apply bind_Ok. eexists _, _. split; [by apply ecall_ok|]. by apply as_int_Ok.
Qed.
Lemma connector_balance_ok t : token_at w t -> is_connector w C t -> getConnectorBalance (exec adv (S f)) c t w = Ok (reserve w C t, w).
Proof.
  intros [Ht HT] Hs. destruct (conv_sc _ _ HC) as (sc & Hsc & K). unfold getConnectorBalance, require_valid_connector.
  unfold is_connector in Hs. unfold reserve. rewrite (connector_of_sc _ _ _ _ Hsc) in Hs |- *.
  apply bind_Ok. exists tt, w. split; [mbuild|].
  apply bind_Ok. exists sc, w. split; [by apply this_Ok|].
  destruct (cn_venabled (conn sc t)); [by apply ret_Ok|].
  destruct (token_answers adv w _ Ht HT) as (_ & _ & _ & _ & Ha).
  apply bind_Ok. eexists _, _. split; [by apply ecall_ok|]. by apply as_int_Ok.
Qed.
Lemma require_active_ok : active w C -> require_active (exec adv (S f)) c w = Ok (tt, w).
Proof.
  intros Ha. unfold require_active. apply bind_Ok. eexists _, _. split; [apply is_active_ok|].
  apply require_Ok. by rewrite bool_decide_eq_true.
Qed.
Lemma purchase_ok t amount (b : bool) r : token_at w t -> active w C -> is_connector w C t -> cn_penabled (connector_of w C t) = true ->
  purchase_quote w C t amount (if b then amount else 0) = Some r -> get_purchase_return (exec adv (S f)) c t amount b w = Ok (r, w).
Proof.
  intros Ht Ha Hs Hp Hq. destruct (conv_sc _ _ HC) as (sc & Hsc & K). pose proof Hs as Hs'.
  unfold is_connector in Hs. unfold purchase_quote in Hq. pose proof (fun t => connector_of_sc _ _ _ t Hsc) as Hcn; rewrite ?Hcn in Hs, Hp, Hq.
  unfold get_purchase_return, require_valid_connector.
  apply bind_Ok. eexists _, _. split; [by apply require_active_ok|].
  apply bind_Ok. exists tt, w. split; [mbuild|].
  apply bind_Ok. exists sc, w. split; [by apply this_Ok|].
  apply bind_Ok. exists tt, w. split; [mbuild|].
  apply bind_Ok. eexists _, _. split; [by apply token_supply_ok|].
  apply bind_Ok. eexists _, _. split; [by apply connector_balance_ok|].
  apply bind_Ok. exists sc, w. split; [by apply this_Ok|].
  replace (reserve w C t - (if b then amount else 0)) with (if b then reserve w C t - amount else reserve w C t) in Hq by (destruct b; lia).
  destruct (calculate_purchase_return _ _ _ _) as [x|] eqn:Ex; [|done].
  apply bind_Ok. exists x, w. split; [by apply lift_Ok|]. by apply with_fee_inv.
Qed.
Lemma sale_ok t amount r : token_at w t -> active w C -> is_connector w C t ->
  sale_quote w C t amount = Some r -> get_sale_return (exec adv (S f)) c t amount w = Ok (r, w).
Proof.
  intros Ht Ha Hs Hq. destruct (conv_sc _ _ HC) as (sc & Hsc & K). pose proof Hs as Hs'.
  unfold is_connector in Hs. unfold sale_quote in Hq. pose proof (fun t => connector_of_sc _ _ _ t Hsc) as Hcn; rewrite ?Hcn in Hs, Hq.
  unfold get_sale_return, require_valid_connector.
  apply bind_Ok. eexists _, _. split; [by apply require_active_ok|].
  apply bind_Ok. exists tt, w. split; [mbuild|].
  apply bind_Ok. eexists _, _. split; [by apply token_supply_ok|].
  apply bind_Ok. eexists _, _. split; [by apply connector_balance_ok|].
  apply bind_Ok. exists sc, w. split; [by apply this_Ok|].
  destruct (calculate_sale_return _ _ _ _) as [x|] eqn:Ex; [|done].
  apply bind_Ok. exists x, w. split; [by apply lift_Ok|]. by apply with_fee_inv.
Qed.
Lemma cross_ok from to amount (b : bool) r : token_at w from -> token_at w to -> active w C -> is_connector w C from -> is_connector w C to ->
  cn_penabled (connector_of w C to) = true -> cross_quote w C from to amount (if b then amount else 0) = Some r ->
  get_cross_connector_return (exec adv (S f)) c from to amount b w = Ok (r, w).
Proof.
  intros Ht Ht2 Ha Hs Hs2 Hp Hq. destruct (conv_sc _ _ HC) as (sc & Hsc & K). pose proof Hs as Hs'. pose proof Hs2 as Hs2'.
  unfold is_connector in Hs, Hs2. unfold cross_quote in Hq. pose proof (fun t => connector_of_sc _ _ _ t Hsc) as Hcn; rewrite ?Hcn in Hs, Hs2, Hp, Hq.
  unfold get_cross_connector_return, require_valid_connector.
  apply bind_Ok. eexists _, _. split; [by apply require_active_ok|].
  apply bind_Ok. exists tt, w. split; [mbuild|].
  apply bind_Ok. exists tt, w. split; [mbuild|].
  apply bind_Ok. exists sc, w. split; [by apply this_Ok|].
  apply bind_Ok. exists tt, w. split; [mbuild|].
  apply bind_Ok. eexists _, _. split; [by apply connector_balance_ok|].
  apply bind_Ok. eexists _, _. split; [by apply connector_balance_ok|].
  apply bind_Ok. exists sc, w. split; [by apply this_Ok|].
  replace (reserve w C from - (if b then amount else 0)) with (if b then reserve w C from - amount else reserve w C from) in Hq by (destruct b; lia).
  rewrite !Hcn in Hq.
  destruct (calculate_cross_connector_return _ _ _ _ _) as [x|] eqn:Ex; [|done].
  apply bind_Ok. exists x, w. split; [by apply lift_Ok|]. apply with_fee_inv; [done|]; (split; [lia|done]).
Qed.
End conv2.

(* getReturn of a converter, as a function of the observable state *)
Definition quote (w : world) (C from to : addr) (amount : Z) : option (Z * Z) :=
  if decide (from = to) then None else
  if decide (active w C) then
    if decide (to = token_of w C) then
      if cn_set (connector_of w C from) && cn_penabled (connector_of w C from) then purchase_quote w C from amount 0 else None
    else if decide (from = token_of w C) then
      if cn_set (connector_of w C to) then sale_quote w C to amount else None
    else if cn_set (connector_of w C from) && cn_set (connector_of w C to) && cn_penabled (connector_of w C to)
      then cross_quote w C from to amount 0 else None
  else None.

Section getreturn.
Variable adv : adversary.
Lemma getReturn_inv f c from to v w r w' : conv_at w (c_self c) -> token_at w from -> token_at w to ->
  getReturn (exec adv f) c from to v w = Ok (r, w') -> quote w (c_self c) from to v = Some r /\ w' = w.
Proof.
  intros HC Hf Ht H. unfold getReturn in H. unfold quote.
  apply bind_Ok in H as (u & w0 & H0 & H). mrun H0. bools.
  apply bind_Ok in H as (sc & w0 & H0 & H). apply this_Ok in H0 as [Hsc ->].
  rewrite decide_False by done. pose proof (token_of_sc _ _ _ Hsc) as Htk. rewrite <- Htk in H.
  case_bool_decide as E1; [|case_bool_decide as E2].
  - apply purchase_inv in H as ((Ha & Hs & Hp & Hq) & ->); [|done..]. split; [|done].
    rewrite !decide_True by done. unfold is_connector in Hs. by rewrite Hs, Hp.
  - apply sale_inv in H as ((Ha & Hs & Hq) & ->); [|done..]. split; [|done].
    rewrite decide_True by done. rewrite decide_False by done. rewrite decide_True by done. unfold is_connector in Hs. by rewrite Hs.
  - apply cross_inv in H as ((Ha & Hs & Hs2 & Hp & Hq) & ->); [|done..]. split; [|done].
    rewrite decide_True by done. rewrite !decide_False by done. unfold is_connector in Hs, Hs2. by rewrite Hs, Hs2, Hp.
Qed.
Lemma getReturn_ok f c from to v w r : conv_at w (c_self c) -> token_at w from -> token_at w to ->
  quote w (c_self c) from to v = Some r -> getReturn (exec adv (S f)) c from to v w = Ok (r, w).
Proof.
  intros HC Hf Ht H. unfold getReturn. unfold quote in H. destruct (conv_sc _ _ HC) as (sc & Hsc & K).
  case_decide as E0; [done|]. case_decide as Ha; [|done].
  apply bind_Ok. exists tt, w. split; [apply require_Ok; by rewrite bool_decide_eq_true|].
  apply bind_Ok. exists sc, w. split; [by apply this_Ok|].
  rewrite <- (token_of_sc _ _ _ Hsc).
  case_decide as E1; [|case_decide as E2].
  - rewrite bool_decide_eq_true_2 by done. destruct (cn_set _) eqn:Hs, (cn_penabled _) eqn:Hp; try done. by apply purchase_ok.
  - rewrite bool_decide_eq_false_2, bool_decide_eq_true_2 by done. destruct (cn_set _) eqn:Hs; try done. by apply sale_ok.
  - rewrite !bool_decide_eq_false_2 by done. destruct (cn_set (connector_of _ _ from)) eqn:Hs, (cn_set (connector_of _ _ to)) eqn:Hs2, (cn_penabled _) eqn:Hp; try done. by apply cross_ok.
Qed.
(* the call of getReturn *)
Lemma exec_getReturn_inv f ro s C from to v w r w' : conv_at w C -> token_at w from -> token_at w to ->
  exec adv f ro s C 0 (MGetReturn from to v) w = Ok (r, w') ->
  exists x fee, quote w C from to v = Some (x, fee) /\ r = RRet x fee /\ w' = w.
Proof.
  intros HC Hf Ht H. destruct f as [|f]; [done|]. destruct (conv_sc _ _ HC) as (sc & Hsc & K). pose proof HC as (HC1 & _).
  destruct (proj1 (exec_honest_Ok adv f _ _ _ _ _ _ _ _ _ HC1 Hsc K ltac:(done)) H) as [_ H'].
  cbn -[getReturn bind] in H'. apply bind_Ok in H' as (p & w1 & H1 & H2). apply ret_Ok in H2 as [-> ->].
  apply getReturn_inv in H1 as [H1 ->]; [|done..]. exists p.1, p.2. by destruct p.
Qed.
Lemma exec_getReturn_ok f ro s C from to v w x fee : conv_at w C -> token_at w from -> token_at w to ->
  quote w C from to v = Some (x, fee) -> exec adv (S (S f)) ro s C 0 (MGetReturn from to v) w = Ok (RRet x fee, w).
Proof.
  intros HC Hf Ht Hq. destruct (conv_sc _ _ HC) as (sc & Hsc & K). pose proof HC as (HC1 & _).
  apply (exec_honest_Ok adv _ _ _ _ _ _ _ _ _ _ HC1 Hsc K ltac:(done)). split; [by right|].
  cbn -[getReturn bind exec]. apply bind_Ok. eexists _, _. split; [by apply getReturn_ok|]. done.
Qed.
End getreturn.
