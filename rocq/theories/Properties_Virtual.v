(* C66: virtual balances make round trips profitable. *)
From Coq Require Import String Ascii ZArith Reals Lra Lia.
From stdpp Require Import base countable list numbers strings gmap relations.
From Verif Require Import Res FormulaModel FormulaAccuracy FormulaVirtual Codec CodecProofs World WorldBasics WorldSteps WorldExec WorldSpec Scenario WorldInv
  WorldConv WorldHop WorldPath WorldLive TradingSpec WorldPool Properties_Converter.
Local Open Scope Z_scope.

Lemma no_fee w C from to y x : fee_of w C = 0 -> 0 <= fee_steps w C from to -> after_fee (fee_of w C) (fee_steps w C from to) y x -> y = x.
Proof.
  intros -> H (_ & H1 & H2). replace (1000000 - 0) with 1000000 in * by lia. assert (0 < 1000000 ^ fee_steps w C from to) by (apply Z.pow_pos_nonneg; lia). nia.
Qed.
(* One expects that an outsider cannot take value out of a converter by buying and selling (C62).  With a virtual balance he can:
   a purchase is executed at the balance lowered by the amount paid (C40), the sale that follows at the true one.
   In exact arithmetic and without fees he gains a^2 / B from a purchase for a at a virtual balance of B, whatever the supply
   and the weight: *)
Theorem C66_ideal_profit : forall S B a W : R, (0 < S -> 0 < a < B -> 0 < W ->
  let bought := S * (Rpower (1 + a / (B - a)) W - 1) in
  (B + a) * (1 - Rpower (1 - bought / (S + bought)) (1 / W)) = a + a * a / B)%R.
Proof. exact ideal_round_trip. Qed.
Print Assumptions C66_ideal_profit.

(* and so it is of the contract, up to roundings: the network buys for a and sells what it got *)
Theorem C66_round_trip_profit : forall adv f1 f2 ro1 ro2 N T C a d d' min min' w r1 w1 r2 w2,
  token_at w T -> genuine_converter w C -> network_at w N -> owner_of w C <> N -> fee_of w C = 0 ->
  let F := token_of w C in let B := reserve w C T in
  cn_venabled (connector_of w C T) = true -> B <= 8000000 * (B - a) ->
  wants d F min -> exec adv f1 ro1 N T 0 (MTransfer C a (Some d)) w = Ok (r1, w1) ->
  wants d' T min' -> exec adv f2 ro2 N F 0 (MTransfer C (balance_of w1 F N - balance_of w F N) (Some d')) w1 = Ok (r2, w2) ->
  (forall X b, ~ (X = T /\ (b = N \/ b = C)) -> balance_of w2 X b = balance_of w X b) /\
  (forall X, supply_of w2 X = supply_of w X) /\
  exists gain, balance_of w2 T N = balance_of w T N + gain /\ balance_of w2 T C = balance_of w T C - gain /\ reserve w2 C T = B - gain /\
    (IZR a * IZR a / IZR B - 1 - 4 * IZR B * (/ 2 ^ 94 + 1000000 / (IZR (cn_weight (connector_of w C T)) * IZR (supply_of w F))) <= IZR gain)%R.
Proof.
  intros adv f1 f2 ro1 ro2 N T C a d d' min min' w r1 w1 r2 w2 HT HG HN HoN Hfee F B Hve HB Hd H1 Hd' H2.
  assert (forall to m, wants d to m -> to = F /\ m = min) as U. { intros to m Hw. apply wants_iff in Hw, Hd. rewrite Hd in Hw. by injection Hw as <- <-. }
  assert (forall to m, wants d' to m -> to = T /\ m = min') as U'. { intros to m Hw. apply wants_iff in Hw, Hd'. rewrite Hd' in Hw. by injection Hw as <- <-. }
  assert (token_at w F) as HF by (apply conv_token_at, HG).
  destruct (C34_min_return adv _ _ _ _ _ _ _ _ _ _ HT HG HN HoN (fun to m Hw => eq_ind_r (token_at w) HF (proj1 (U to m Hw))) ltac:(lia) H1)
    as (to & m & x & y & Hw & Hmx & Hne & Hb1 & _ & Hy & Hfx). apply U in Hw as [-> ->].
  destruct (C37_purchase adv _ _ _ _ _ _ _ _ _ _ _ HT HG HN HoN Hd H1) as (x' & fee & _ & Hbal & Hsup & Hconn & HL & _).
  fold F in Hbal, Hsup, Hb1. assert (C <> N) as HCN. { intros ->. destruct HG as [(_ & G & _) _], HN as (_ & _ & G'). congruence. }
  assert (x' = x) as ->. { rewrite Hbal, credit_eq, (credit_ne1 T), (credit_ne1 T) in Hb1 by congruence. lia. }
  destruct (to_converter_inv adv _ _ _ _ _ _ _ _ _ _ HT HG H1) as (Ha & _).
  assert (forall a b, 0 <= fee_steps w C a b) as Hfs by (intros; unfold fee_steps; by repeat destruct (decide _)).
  apply no_fee in Hfx; [|done|done]. subst y.
  assert (balance_of w1 F N - balance_of w F N = x) as E by lia. rewrite E in H2. clear E.
  assert (token_at w1 T) as HT1 by (by eapply ledger_token_at). assert (token_of w1 C = F) as EF by (by apply ledger_token).
  assert (genuine_converter w1 C) as HG1.
  { destruct HG as (G1 & G2 & G3). split; [by eapply ledger_conv|]. rewrite (ledger_registry _ _ _ HL), (ledger_kind _ _ _ HL). done. }
  assert (network_at w1 N) as HN1. { destruct HN as (G1 & G2 & G3). split; [done|]. split; [done|]. by rewrite (ledger_kind _ _ _ HL). }
  assert (owner_of w1 C <> N) as HoN1 by (by rewrite (ledger_owner _ _ _ HL)).
  assert (fee_of w1 C = 0) as Hfee1 by (by rewrite (ledger_fee _ _ _ HL)).
  assert (forall a b, 0 <= fee_steps w1 C a b) as Hfs1 by (intros; unfold fee_steps; by repeat destruct (decide _)).
  assert (token_at w1 F) as HF1 by (by eapply ledger_token_at).
  destruct (C34_min_return adv _ _ _ _ _ _ _ _ _ _ HF1 HG1 HN1 HoN1 (fun to m Hw => eq_ind_r (token_at w1) HT1 (proj1 (U' to m Hw))) ltac:(lia) H2)
    as (to & m & p & y & Hw & Hmp & _ & Hb2 & _ & Hy2 & Hfp). apply U' in Hw as [-> ->]. apply no_fee in Hfp; [|done|done]. subst y.
  rewrite <- EF in H2. destruct (C37_sale adv _ _ _ _ _ _ _ _ _ _ _ HT1 HG1 HN1 HoN1 Hd' H2) as (p' & fee' & _ & Hbal' & Hsup' & Hconn' & _).
  rewrite EF in Hbal', Hsup', H2.
  assert (p' = p) as ->. { rewrite Hbal', credit_eq, (credit_ne1 F), (credit_ne T C) in Hb2 by congruence. lia. }
  assert (connector_of w1 C T = add_virtual a (connector_of w C T)) as Ec1. { rewrite Hconn. unfold lowered. by rewrite Hve, credit_eq. }
  assert (connector_of w2 C T = add_virtual (- p) (connector_of w1 C T)) as Ec2. { rewrite Hconn'. unfold lowered. rewrite Ec1. cbn [add_virtual cn_venabled]. by rewrite Hve, credit_eq. }
  assert (supply_of w1 F = supply_of w F + x) as Es1. { rewrite Hsup. unfold at_. by rewrite decide_True. }
  unfold formula_result in Hy, Hy2. fold F in Hy. rewrite EF in Hy2. rewrite decide_True in Hy by done. rewrite (decide_False (P := T = F)), (decide_True (P := F = F)) in Hy2 by done.
  rewrite Hve in Hy. fold B in Hy. unfold reserve in Hy2. rewrite Ec1, Es1 in Hy2. cbn [add_virtual cn_venabled cn_virtual cn_weight] in Hy2. rewrite Hve in Hy2.
  replace (cn_virtual (connector_of w C T)) with B in Hy2 by (unfold B, reserve; by rewrite Hve).
  split; [|split].
  - intros X b HXb. rewrite Hbal', Hbal. unfold credit. repeat destruct (decide _); try lia; exfalso; naive_solver.
  - intros X. rewrite Hsup', Hsup. lia.
  - exists (p - a). split; [|split; [|split]].
    + rewrite Hb2, Hbal, credit_eq, (credit_ne T C), (credit_ne1 F) by congruence. lia.
    + rewrite Hbal', Hbal, !credit_eq, !(credit_ne T N), !(credit_ne1 F) by congruence. lia.
    + unfold reserve. rewrite Ec2, Ec1. cbn [add_virtual cn_venabled cn_virtual]. rewrite Hve. unfold B, reserve. rewrite Hve. lia.
    + assert (0 < a < B) as HaB. { split; [lia|]. destruct (FormulaQuotes.purchase_domain _ _ _ _ _ (Z.lt_le_incl _ _ (proj1 Ha)) Hy) as (_ & ? & _). lia. }
      pose proof (round_trip_profit _ _ _ _ _ _ HaB HB Hy Hy2) as K. rewrite minus_IZR. lra.
Qed.
Print Assumptions C66_round_trip_profit.

(* C40 again: the amount paid is never more than one unit below the amount quoted, for trades within the formula's range
   (the reserve lowered by the amount not below an 8,000,000th of the reserve, the supply below 2^113; in an exchange of two connectors
   the other reserve below 2^99 and at least an 8,000,000th of it left) *)
Lemma after_fee_step fee k y1 y2 x1 x2 : 0 <= k -> 0 <= fee <= 1000000 -> y1 <= y2 + 1 -> after_fee fee k y1 x1 -> after_fee fee k y2 x2 -> x1 <= x2 + 1.
Proof.
  intros Hk Hf Hy (_ & H1 & _) (_ & _ & H2). assert (0 <= (1000000 - fee) ^ k) as Hm by (apply Z.pow_nonneg; lia).
  assert ((1000000 - fee) ^ k <= 1000000 ^ k) as Hle by (apply Z.pow_le_mono_l; lia).
  assert (0 < 1000000 ^ k) as HM by (apply Z.pow_pos_nonneg; lia). generalize dependent (1000000 ^ k). generalize dependent ((1000000 - fee) ^ k). nia.
Qed.
Theorem C40_at_least_the_quote_less_one : forall adv fuel ro N T C v d to min q fee w r w', token_at w T -> genuine_converter w C -> network_at w N -> owner_of w C <> N ->
  0 <= fee_of w C <= 1000000 -> T <> token_of w C -> cn_venabled (connector_of w C T) = true ->
  wants d to min -> token_at w to -> replies adv w C (MGetReturn T to v) (RRet q fee) ->
  let R := reserve w C T in
  (if decide (to = token_of w C) then R <= 8000000 * (R - v) /\ supply_of w to + (q + fee) < 2 ^ 113
   else reserve w C to < 2 ^ 99 /\
        (/ 8000000 <= Rpower ((IZR R - IZR v) / IZR R) (IZR (cn_weight (connector_of w C T)) / IZR (cn_weight (connector_of w C to))))%R) ->
  exec adv fuel ro N T 0 (MTransfer C v (Some d)) w = Ok (r, w') ->
  balance_of w to N + q - 1 <= balance_of w' to N.
Proof.
  intros adv fuel ro N T C v d to min q fee w r w' HT HG HN HoN Hf HTF Hv Hd Hto (n & Hq) R Hrange H.
  assert (forall to' m, wants d to' m -> to' = to /\ m = min) as U. { intros to' m Hw. apply wants_iff in Hw, Hd. rewrite Hd in Hw. by injection Hw as <- <-. }
  destruct (C34_min_return adv _ _ _ _ _ _ _ _ _ _ HT HG HN HoN (fun t m Hw => eq_ind_r (token_at w) Hto (proj1 (U t m Hw))) Hf H)
    as (to' & m & x & y & Hw & _ & _ & Hb & _ & Hy & Ha). apply U in Hw as [-> ->]. rewrite Hv in Hy.
  destruct (to_converter_inv adv _ _ _ _ _ _ _ _ _ _ HT HG H) as (Hv0 & _).
  specialize (Hq n false N ltac:(lia)). apply exec_getReturn_inv in Hq as (q' & fee' & Hq & [= <- <-] & _); [|apply HG|done|done].
  apply quote_formula in Hq as (y' & Hy' & Ha' & Hfee); [|lia|done].
  assert (y' <= y + 1) as Hyy.
  { unfold formula_result in Hy, Hy'. fold R in Hy, Hy'. rewrite Z.sub_0_r in Hy'. destruct (decide (to = token_of w C)) as [->|Hne].
    - destruct Hrange as [R1 R2]. eapply purchase_near_monotone_ratio; [| | | | |exact Hy'|exact Hy]; lia || nia.
    - rewrite decide_False in Hy, Hy' by done. destruct Hrange as [R1 R2].
      eapply cross_near_monotone_ratio; [| | | | |exact Hy'|exact Hy]; [lia|lia|nia|lia|].
      rewrite minus_IZR. replace (IZR R - IZR v + IZR v)%R with (IZR R) by lra. exact R2. }
  pose proof (after_fee_step _ _ _ _ _ _ ltac:(apply fee_steps_nonneg) Hf Hyy Ha' Ha). lia.
Qed.
Print Assumptions C40_at_least_the_quote_less_one.

(* A reachable state and an outsider, who buys with one unit less than the virtual balance and sells again: in spite of a fee of
   0.3% he takes away 99% of the virtual balance, for nothing *)
Definition buy (v : Z) : tx := call 2 irct (MTransfer network v (Some (pay_path [irct; flexA; flexA] 1))).
Definition sell (v : Z) : tx := call 2 flexA (MTransfer network v (Some (pay_path [flexA; flexA; irct] 1))).
Theorem C66_drained_refuted : exists v bought w', reachable quiet virtual /\ outsider virtual convA alice /\
  0 < fee_of virtual convA /\ reserve virtual convA irct = v + 1 /\
  play quiet 20 [buy v; sell bought] virtual = Some w' /\
  balance_of w' flexA alice = balance_of virtual flexA alice /\ balance_of w' icxt alice = balance_of virtual icxt alice /\ icx w' alice = icx virtual alice /\
  supply_of w' flexA = supply_of virtual flexA /\
  100 * (balance_of w' irct alice - balance_of virtual irct alice) > 99 * reserve virtual convA irct /\
  100 * reserve w' convA irct < reserve virtual convA irct.
Proof.
  exists 99999999, 249438077221505, (default world0 (play quiet 20 [buy 99999999; sell 249438077221505] virtual)).
  split; [eapply play_reachable; [apply ready_reachable|apply play_default; by vm_compute]|].
  split.
  { assert (secure virtual alice admin) as Ha by (by apply secure_user).
    assert (secure virtual alice convA) as Hc.
    { apply secure_conv; [by vm_compute| |].
      - by replace (owner_of virtual convA) with admin by (by vm_compute).
      - replace (pending_owner_of virtual convA) with zero_score by (by vm_compute). constructor. }
    split.
    - intros X HX. replace (connectors_of virtual convA) with [icxt; irct] in HX by (by vm_compute).
      replace (token_of virtual convA) with flexA in HX by (by vm_compute). replace (registry_of virtual convA) with registry in HX by (by vm_compute).
      destruct HX as [->|[->|[->|[HX K]]]].
      + replace (owner_of virtual convA) with admin by (by vm_compute). replace (pending_owner_of virtual convA) with zero_score by (by vm_compute). split; [done|constructor].
      + replace (owner_of virtual flexA) with convA by (by vm_compute). replace (pending_owner_of virtual flexA) with zero_score by (by vm_compute). split; [done|constructor].
      + replace (owner_of virtual registry) with admin by (by vm_compute). replace (pending_owner_of virtual registry) with zero_score by (by vm_compute). split; [done|constructor].
      + exfalso. apply elem_of_cons in HX as [->|HX]; [by vm_compute in K|]. apply elem_of_list_singleton in HX as ->. by vm_compute in K.
    - intros a Hm. replace (manager_of virtual convA) with (@None addr) in Hm by (by vm_compute). replace (pending_manager_of virtual convA) with (@None addr) in Hm by (by vm_compute).
      by destruct Hm. }
  split; [by vm_compute|]. split; [by vm_compute|]. split; [apply play_default; by vm_compute|].
  vm_compute. done.
Qed.
Print Assumptions C66_drained_refuted.

(* a state without fee in which the network can do the round trip of C66_round_trip_profit: it gains 24,999,999 of 10^8 *)
Lemma virtual_reachable : reachable quiet virtual.
Proof. eapply play_reachable; [apply ready_reachable|apply play_default; by vm_compute]. Qed.
Definition virtual_free : world := default world0 (play quiet 9
  [call 1 convA (MSetConversionFee 0); call 2 irct (MTransfer network (10 ^ 8) (Some data_result))] virtual).
Example C66_example : reachable quiet virtual_free /\ token_at virtual_free irct /\ genuine_converter virtual_free convA /\ network_at virtual_free network /\
  owner_of virtual_free convA <> network /\ fee_of virtual_free convA = 0 /\ cn_venabled (connector_of virtual_free convA irct) = true /\
  token_of virtual_free convA = flexA /\ reserve virtual_free convA irct = 10 ^ 8 /\ 10 ^ 8 <= 8000000 * (10 ^ 8 - 5 * 10 ^ 7) /\
  wants (request flexA 1) flexA 1 /\ wants (request irct 1) irct 1 /\
  match exec quiet 9 false network irct 0 (MTransfer convA (5 * 10 ^ 7) (Some (request flexA 1))) virtual_free with
  | Ok (_, w1) =>
      match exec quiet 9 false network flexA 0 (MTransfer convA (balance_of w1 flexA network - balance_of virtual_free flexA network) (Some (request irct 1))) w1 with
      | Ok (_, w2) => balance_of w2 irct network = balance_of virtual_free irct network + 24999999
      | Err _ => False
      end
  | Err _ => False
  end.
Proof.
  split; [eapply play_reachable; [exact virtual_reachable|apply play_default; by vm_compute]|].
  split; [split; [done|left; by vm_compute]|]. split; [split; [split; [done|]|]; vm_compute; done|].
  split; [split; [done|split; [done|by vm_compute]]|]. split; [by vm_compute|]. split; [by vm_compute|]. split; [by vm_compute|].
  split; [by vm_compute|]. split; [by vm_compute|]. split; [by vm_compute|]. split; [by apply wants_request|]. split; [by apply wants_request|].
  vm_compute. done.
Qed.
(* the same state meets the hypotheses of C40_at_least_the_quote_less_one, for a purchase and for an exchange of two connectors *)
Example C40_at_least_example : let w := virtual_free in let R := reserve w convA irct in let v := 5 * 10 ^ 7 in
  irct <> token_of w convA /\ wants (request flexA 1) flexA 1 /\ wants (request icxt 1) icxt 1 /\ token_at w flexA /\ token_at w icxt /\
  returned (exec quiet 9 true alice convA 0 (MGetReturn irct flexA v) w) = Some (RRet 129346935456 0) /\
  returned (exec quiet 9 true alice convA 0 (MGetReturn irct icxt v) w) = Some (RRet 21594731831688428494334 0) /\
  R <= 8000000 * (R - v) /\ supply_of w flexA + (129346935456 + 0) < 2 ^ 113 /\ reserve w convA icxt < 2 ^ 99 /\
  (/ 8000000 <= Rpower ((IZR R - IZR v) / IZR R) (IZR (cn_weight (connector_of w convA irct)) / IZR (cn_weight (connector_of w convA icxt))))%R /\
  match exec quiet 9 false network irct 0 (MTransfer convA v (Some (request flexA 1))) w with
  | Ok (_, w1) => balance_of w1 flexA network = balance_of w flexA network + 231144413344 | Err _ => False end /\
  match exec quiet 9 false network irct 0 (MTransfer convA v (Some (request icxt 1))) w with
  | Ok (_, w1) => balance_of w1 icxt network = balance_of w icxt network + 34024604461355287031299 | Err _ => False end.
Proof.
  cbv zeta.
  assert (IZR (reserve virtual_free convA irct) = 100000000 /\ IZR (cn_weight (connector_of virtual_free convA irct)) = 300000 /\
          IZR (cn_weight (connector_of virtual_free convA icxt)) = 500000)%R as (E1 & E2 & E3) by (split; [|split]; apply f_equal; by vm_compute).
  rewrite E1, E2, E3. clear E1 E2 E3.
  split; [by vm_compute|]. split; [by apply wants_request|]. split; [by apply wants_request|].
  split; [split; [done|vm_compute; naive_solver]|]. split; [split; [done|vm_compute; naive_solver]|].
  split; [by vm_compute|]. split; [by vm_compute|]. split; [by vm_compute|]. split; [by vm_compute|]. split; [by vm_compute|].
  split; [|split; vm_compute; done]. change (5 * 10 ^ 7) with 50000000.
  replace ((100000000 - 50000000) / 100000000)%R with (/ 2)%R by lra.
  apply Rle_trans with (Rpower (/ 2) 1); [rewrite Rpower_1; lra|].
  unfold Rpower. apply RealTools.exp_le_compat. assert (ln (/ 2) < 0)%R by (rewrite <- ln_1; apply ln_increasing; lra). nra.
Qed.
