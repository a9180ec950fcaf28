(* C69: bystanders cannot stop trading, they can only move the price. *)
From Coq Require Import String Ascii ZArith Lia.
From stdpp Require Import base countable list numbers strings gmap relations.
From Verif Require Import Res FormulaModel FormulaPropsProofs Codec CodecProofs World WorldBasics WorldExec WorldSpec Scenario WorldInv WorldAuth WorldNet WorldOwner
  WorldPath WorldHop WorldMore WorldLive TradingSpec ReadySpec OpenSpec WorldPool WorldReady WorldOpen Properties_Network Properties_Trading.
Local Open Scope Z_scope.

Lemma shape_facts p : path_shape p -> (2 < List.length p)%nat /\ Nat.odd (List.length p) = true.
Proof. intros ([A _] & B & _). split; [lia|done]. Qed.
Lemma earns_iff adv w N T rest v z : reachable adv w -> (forall C, C ∈ converters w (T :: rest) -> set_up w C) -> open_path w N T rest -> 0 <= v ->
  passable w N T rest v z <-> earns w T rest v z.
Proof.
  intros Hr HS HO Hv. apply (passable_earns adv); [done| |done|done]. intros f Hf. apply HS. unfold converters. apply elem_of_list_fmap. by exists f.
Qed.

(* A path is open in the state w.  Whatever bystanders have done since then: a conversion succeeds exactly when
   the sender has the (positive) amount and the formula, with the present balances, gives at least the (positive) minimum. *)
Theorem C69_bystanders_cannot_stop_token_conversions : forall adv w N p T rest L w', p = T :: rest -> last p = Some L ->
  reachable adv w -> kind_at w N = Some KNet -> path_shape p -> genuine_path w p -> (forall C, C ∈ converters w p -> set_up w C) ->
  open_path w N T rest -> payable w N L -> bystanders_history adv N p w w' ->
  forall fuel u n v z d, (6 <= fuel)%nat -> asks d (EOA u) p z (EOA n) ->
  succeeds (run_tx adv fuel (TCall u T 0 (MTransfer N v (Some d)))) w' <->
  0 < z /\ 0 < v <= balance_of w' T (EOA u) /\ earns w' T rest v z.
Proof.
  intros adv w N p T rest L w' -> HL Hr HN Hsh HG HS HO HP H fuel u n v z d Hf Ha. destruct (shape_facts _ Hsh) as [Hl Hodd].
  destruct (path_stays adv w N T rest L w' Hr HN Hl Hodd HG HS HL HO HP H) as (A1 & A2 & A3 & A4 & A5 & A6 & A7 & A8 & A9).
  assert (is_token w' T) as HT by (destruct rest; [exact A3|apply A3]).
  assert (forall C, C ∈ converters w' (T :: rest) -> set_up w' C) as HS' by (intros C HC; rewrite A6 in HC; by apply A9).
  rewrite (C64_token_conversion adv fuel u n T N (T :: rest) z v d w' A1 A2 HT A3 Ha Hf). split.
  - intros (_ & Hz & Hv & rest' & L' & E1 & _ & Hp & _). injection E1 as <-. split; [done|]. split; [done|].
    eapply earns_iff; [exact A1|exact HS'|exact A4|lia|exact Hp].
  - intros (Hz & Hv & He). split; [done|]. split; [done|]. split; [done|]. exists rest, L. split; [done|]. split; [done|]. split; [|done].
    eapply earns_iff; [exact A1|exact HS'|exact A4|lia|exact He].
Qed.
Print Assumptions C69_bystanders_cannot_stop_token_conversions.

(* the same for coins *)
Theorem C69_bystanders_cannot_stop_coin_conversions : forall adv w N p T rest L w' text, convert_path text = Some p -> p = T :: rest -> last p = Some L ->
  reachable adv w -> kind_at w N = Some KNet -> path_shape p -> genuine_path w p -> (forall C, C ∈ converters w p -> set_up w C) ->
  open_path w N T rest -> payable w N L -> icx_registered w N T = true -> kind_at w T = Some KIcx -> bystanders_history adv N p w w' ->
  forall fuel u n v z m, (5 <= fuel)%nat -> m = MConvertFor text z (EOA n) \/ m = MConvert text z /\ n = u ->
  succeeds (run_tx adv fuel (TCall u N v m)) w' <-> 0 < z /\ 0 < v <= icx w' (EOA u) /\ earns w' T rest v z.
Proof.
  intros adv w N p T rest L w' text Ht -> HL Hr HN Hsh HG HS HO HP HI HK H fuel u n v z m Hf Hm. destruct (shape_facts _ Hsh) as [Hl Hodd].
  destruct (path_stays adv w N T rest L w' Hr HN Hl Hodd HG HS HL HO HP H) as (A1 & A2 & A3 & A4 & A5 & A6 & A7 & A8 & A9).
  assert (forall C, C ∈ converters w' (T :: rest) -> set_up w' C) as HS' by (intros C HC; rewrite A6 in HC; by apply A9).
  rewrite (C64_coin_conversion adv fuel u n N text (T :: rest) z v m w' A1 A2 Ht A3 Hm Hf). split.
  - intros (_ & Hz & Hv & T' & rest' & L' & E1 & _ & _ & _ & Hp & _). injection E1 as <- <-. split; [done|]. split; [done|].
    eapply earns_iff; [exact A1|exact HS'|exact A4|lia|exact Hp].
  - intros (Hz & Hv & He). split; [done|]. split; [done|]. split; [done|]. exists T, rest, L. split; [done|]. split; [done|].
    split; [by rewrite A8|]. split; [by apply A7|]. split; [|done].
    eapply earns_iff; [exact A1|exact HS'|exact A4|lia|exact He].
Qed.
Print Assumptions C69_bystanders_cannot_stop_coin_conversions.

(* In particular nobody can be locked in: a holder of flexible tokens can at any time sell any part of them for any connector
   token, and gets what the formula gives at the present supply and balance, less the fee that was in force all along. *)
Theorem C69_holders_can_sell : forall adv w C F T N w', F = token_of w C -> N = network_of w C ->
  reachable adv w -> set_up w C -> (forall t, t ∈ connectors_of w C -> 0 < balance_of w t C) -> T ∈ connectors_of w C ->
  conversions_enabled w C = true -> movable w F -> movable w T -> payable w N T -> bystanders_history adv N [F; F; T] w w' ->
  forall u a, 0 < a <= balance_of w' F (EOA u) -> supply_of w' F < 2 ^ 129 ->
  exists y x, calculate_sale_return (supply_of w' F) (balance_of w' T C) (cn_weight (connector_of w C T)) a = Ok y /\
    after_fee (fee_of w C) 1 y x /\
    forall fuel n z d, (6 <= fuel)%nat -> asks d (EOA u) [F; F; T] z (EOA n) ->
      succeeds (run_tx adv fuel (TCall u F 0 (MTransfer N a (Some d)))) w' <-> 0 < z <= x.
Proof.
  intros adv w C F T N w' HF HNw Hr HS HB HT Hen MF MT HP H u a Ha Hsup.
  pose proof HS as (GC & Act & KN & HTok & _). pose proof GC as [[Hc [KC [HcF KF]]] [HcR KR]]. rewrite <- HNw in KN.
  unfold active in Act. rewrite <- HF in Act, KF, HcF. destruct (HTok T HT) as [HT' HV].
  assert (T <> F /\ cn_set (connector_of w C T) = true /\ 1 <= cn_weight (connector_of w C T) <= 1000000) as (HTF & Hset & Hw).
  { rewrite HF. revert HT. unfold kind_at in KC. unfold connectors_of, connector_of, token_of, var. destruct (w_scores w !! C) as [sc|] eqn:Hsc; [|done].
    intros HT. destruct (conn_reachable _ _ _ _ Hr Hsc) as [_ A2 A3 A4 _ _ _ _ _]. apply A2 in HT. split; [by apply A4|]. split; [done|].
    specialize (A3 _ HT). unfold conn in A3. lia. }
  set (p := [F; F; T]) in *.
  assert (converters w p = [C]) as Ec by (unfold converters, p; cbn; by rewrite Act).
  assert (genuine_path w p) as HG.
  { unfold p. cbn [genuine_path]. rewrite Act. split; [by right; right|]. split; [done|]. split; [done|]. by split. }
  assert (forall X, X ∈ converters w p -> set_up w X) as HSp by (rewrite Ec; intros X HX; apply elem_of_list_singleton in HX; by subst).
  assert (path_shape p) as Hsh.
  { split; [cbn; lia|]. split; [done|]. intros i j b Hij Hi Hj E1 E2. destruct i as [|[|[|i]]]; [done| |done|done]. destruct j as [|[|[|j]]]; [done| |done|done]. lia. }
  assert (open_path w N F [F; T]) as HO.
  { cbn [open_path]. cbv zeta. rewrite Act. split; [done|]. split; [done|]. split; [done|]. split; [done|]. split; [|done].
    split; [done|]. split; [unfold active; by rewrite <- HF|]. rewrite <- HF, (decide_False (P := T = F)) by done. rewrite decide_True by done. done. }
  assert (last p = Some T) as HL by done.
  destruct (shape_facts _ Hsh) as [Hl Hodd].
  destruct (path_stays adv w N F [F; T] T w' Hr KN Hl Hodd HG HSp HL HO HP H) as (A1 & A2 & A3 & A4 & A5 & A6 & A7 & A8 & A9).
  assert (C ∈ converters w p) as HCp by (rewrite Ec; apply elem_of_list_singleton; done).
  destruct (A9 C HCp) as (S1 & E1 & E2 & E3 & E4 & E5 & E6).
  assert (owner_of w' F = C) as Act'. { destruct S1 as (_ & S1 & _). unfold active in S1. by rewrite E1, <- HF in S1. }
  assert (a <= supply_of w' F) as Has.
  { pose proof (balances_bounded adv w' F [EOA u] A1 (NoDup_singleton _)) as Hb. unfold sum_Z in Hb. cbn [map foldr] in Hb. lia. }
  assert (outside_history adv C w w') as Hout by (by eapply bystanders_outside).
  assert (0 < balance_of w' T C) as HBT by (apply (stays_funded adv w C w' T Hr HS Hout HB); [rewrite <- HF; lia|done]).
  assert (0 <= fee_of w C <= 1000000) as Hfee by (by eapply fee_range).
  destruct (proj2 (sale_domain_iff (supply_of w' F) (balance_of w' T C) (cn_weight (connector_of w C T)) a (Z.lt_le_incl _ _ (proj1 Ha)))) as [y Hy].
  { split; [lia|]. split; [done|]. split; [done|]. split; [lia|]. auto. }
  assert (0 <= y) as Hy0 by (apply (sale_value _ _ _ _ _ (Z.lt_le_incl _ _ (proj1 Ha)) Hy)).
  assert (after_fee (fee_of w C) 1 y (final_amount (fee_of w C) y 1)) as Hx by (by apply final_amount_spec).
  exists y, (final_amount (fee_of w C) y 1). split; [done|]. split; [done|]. intros fuel n z d Hf Hd.
  rewrite (C69_bystanders_cannot_stop_token_conversions adv w N p F [F; T] T w' eq_refl HL Hr KN Hsh HG HSp HO HP H fuel u n a z d Hf Hd).
  cbn [earns]. rewrite Act'.
  assert (forall x, worth w' C F T a 0 x <-> x = final_amount (fee_of w C) y 1) as HW.
  { intros x. unfold worth, formula_result, fee_steps. cbv zeta. rewrite E1, <- HF, E5. rewrite !(decide_False (P := T = F)), !(decide_True (P := F = F)) by done.
    unfold reserve. rewrite E4, HV, Hy. split.
    - intros (y' & Ey & Hx'). apply Ok_inj in Ey as <-. by eapply after_fee_eq.
    - intros ->. by exists y. }
  split.
  - intros (Hz & _ & x & Hx' & Hzx & _). apply HW in Hx' as ->. done.
  - intros [Hz Hzx]. split; [done|]. split; [done|]. exists (final_amount (fee_of w C) y 1). split; [by apply HW|]. done.
Qed.
Print Assumptions C69_holders_can_sell.

(* The converter of the demonstration history; alice, who trades with it, is a bystander; afterwards bob still gets his tokens sold. *)
Lemma play_one adv fuel t w w' : play adv fuel [t] w = Some w' -> w' = apply_tx adv fuel t w.
Proof. cbn [play]. unfold apply_tx. destruct (run_tx adv fuel t w) as [[r w1]|]; [|done]. by intros [= ->]. Qed.
Definition buying : tx := TCall 2 network (10 ^ 18) (MConvert (path_text [icxt; flexA; irct]) 1).
Example C69_example :
  let p := [flexA; flexA; irct] in
  reachable quiet ready /\ set_up ready convA /\ network = network_of ready convA /\ flexA = token_of ready convA /\
  (forall t, t ∈ connectors_of ready convA -> 0 < balance_of ready t convA) /\ irct ∈ connectors_of ready convA /\
  conversions_enabled ready convA = true /\ movable ready flexA /\ movable ready irct /\ payable ready network irct /\
  bystander ready network p alice /\ bystanders_history quiet network p ready (apply_tx quiet 20 buying ready) /\
  balance_of (apply_tx quiet 20 buying ready) irct convA < balance_of ready irct convA /\
  (* the holder: the deployer still has flexible tokens *)
  0 < balance_of (apply_tx quiet 20 buying ready) flexA (EOA 1) /\ supply_of (apply_tx quiet 20 buying ready) flexA < 2 ^ 129.
Proof.
  cbv zeta. destruct C62_example as (H1 & H2 & H3 & HC & _).
  assert (bystander ready network [flexA; flexA; irct] alice) as HB.
  { split; [|split].
    - replace (converters ready [flexA; flexA; irct]) with [convA] by (by vm_compute). intros C HC'. apply elem_of_list_singleton in HC' as ->. exact H3.
    - replace (owner_of ready network) with admin by (by vm_compute). by apply secure_user.
    - replace (pending_owner_of ready network) with zero_score by (by vm_compute). constructor. }
  split; [exact H1|]. split; [exact H2|]. split; [by vm_compute|]. split; [by vm_compute|]. split; [|split].
  { rewrite HC. intros t Ht. apply elem_of_cons in Ht as [->|Ht]; [by vm_compute|]. apply elem_of_list_singleton in Ht as ->. by vm_compute. }
  { rewrite HC. apply elem_of_list_further, elem_of_list_here. }
  split; [by vm_compute|]. split; [intros _; by vm_compute|]. split; [intros K; by vm_compute in K|]. split; [replace (payable ready network irct) with (movable ready irct) by (vm_compute; reflexivity); intros K; by vm_compute in K|].
  split; [exact HB|]. split; [|split; [by vm_compute|]; split; by vm_compute].
  eapply rtc_l; [|apply rtc_refl]. exists 20%nat, buying. split; [exact HB|reflexivity].
Qed.
