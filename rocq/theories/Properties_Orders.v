(* C67, C68: splitting an order into two; buying and selling back.  Nothing but statements, short proofs and assumptions. *)
From Coq Require Import ZArith List String Lia Reals Lra.
From Verif Require Import Res FormulaConsts FormulaModel FormulaInt FormulaQuotes FormulaPropsProofs FormulaSplit FormulaRound.
Import ListNotations.
Local Open Scope Z_scope.

(* C67: two purchases, one after the other, instead of one; the second at the supply and balance the first one leaves.
   The documented power must not exceed 8,000,000 (C63) *)
Theorem C67_splitting_a_purchase : forall supply balance weight d1 d2 r1 r2 r, 0 <= d1 -> 0 <= d2 ->
  calculate_purchase_return supply balance weight d1 = Ok r1 ->
  calculate_purchase_return (supply + r1) (balance + d1) weight d2 = Ok r2 ->
  calculate_purchase_return supply balance weight (d1 + d2) = Ok r ->
  (Rpower (1 + IZR (d1 + d2) / IZR balance) (IZR weight / 1000000) <= 8000000)%R -> supply + r < 2 ^ 112 ->
  r1 + r2 <= r + 1 /\
  (IZR r <= IZR r1 + IZR r2 + Rpower (1 + IZR d2 / IZR (balance + d1)) (IZR weight / 1000000) + 2)%R.
Proof.
  intros S B w d1 d2 r1 r2 r H1 H2 E1 E2 E HX Hlim. split.
  - exact (purchase_split_upper S B w d1 d2 r1 r2 r H1 H2 E1 E2 E HX Hlim).
  - exact (purchase_split_lower S B w d1 d2 r1 r2 r H1 H2 E1 E2 E HX Hlim).
Qed.
Print Assumptions C67_splitting_a_purchase.

(* two sales *)
Theorem C67_splitting_a_sale : forall supply balance weight a1 a2 g1 g2 g, 0 <= a1 -> 0 <= a2 -> balance < 2 ^ 96 ->
  calculate_sale_return supply balance weight a1 = Ok g1 ->
  calculate_sale_return (supply - a1) (balance - g1) weight a2 = Ok g2 ->
  calculate_sale_return supply balance weight (a1 + a2) = Ok g ->
  a1 + a2 = supply \/ (/ 8000000 <= Rpower (1 - IZR (a1 + a2) / IZR supply) (1000000 / IZR weight))%R ->
  g - 2 <= g1 + g2 <= g + 1.
Proof.
  intros S B w a1 a2 g1 g2 g H1 H2 HB E1 E2 E HY.
  assert (0 <= a1 + a2) as H12 by lia.
  destruct (proj1 (sale_domain_iff _ _ _ _ H12) (ex_intro _ _ E)) as (HS & _ & _ & Hle & _).
  destruct (Z.eq_dec (a1 + a2) S) as [Ha|Ha].
  - pose proof (proj1 (proj2 (sale_value _ _ _ _ _ H12 E))) as A. pose proof (proj1 (proj2 (sale_value _ _ _ _ _ H2 E2))) as A2.
    assert (g = B) by (apply A; exact Ha). assert (g2 = B - g1) by (apply A2; lia). lia.
  - destruct HY as [HY|HY]; [lia|]. apply (sale_split S B w a1 a2 g1 g2 g); auto. lia.
Qed.
Print Assumptions C67_splitting_a_sale.

(* two exchanges of one connector for another *)
Theorem C67_splitting_a_cross_conversion : forall balance1 weight1 balance2 weight2 x1 x2 g1 g2 g, 0 <= x1 -> 0 <= x2 -> balance2 < 2 ^ 96 ->
  calculate_cross_connector_return balance1 weight1 balance2 weight2 x1 = Ok g1 ->
  calculate_cross_connector_return (balance1 + x1) weight1 (balance2 - g1) weight2 x2 = Ok g2 ->
  calculate_cross_connector_return balance1 weight1 balance2 weight2 (x1 + x2) = Ok g ->
  (/ 8000000 <= Rpower (IZR balance1 / (IZR balance1 + IZR (x1 + x2))) (IZR weight1 / IZR weight2))%R ->
  g - 2 <= g1 + g2 <= g + 1.
Proof. exact cross_split. Qed.
Print Assumptions C67_splitting_a_cross_conversion.

(* ordinary numbers *)
Example C67_example :
  (exists r1 r2 r, calculate_purchase_return (10 ^ 24) (10 ^ 21) 300000 (10 ^ 19) = Ok r1 /\
     calculate_purchase_return (10 ^ 24 + r1) (10 ^ 21 + 10 ^ 19) 300000 (10 ^ 20) = Ok r2 /\
     calculate_purchase_return (10 ^ 24) (10 ^ 21) 300000 (10 ^ 19 + 10 ^ 20) = Ok r /\ 10 ^ 24 + r < 2 ^ 112) /\
  (Rpower (1 + IZR (10 ^ 19 + 10 ^ 20) / IZR (10 ^ 21)) (IZR 300000 / 1000000) <= 8000000)%R /\
  (/ 8000000 <= Rpower (1 - IZR 50 / IZR 1000) (1000000 / IZR 500000))%R.
Proof.
  split; [do 3 eexists; split; [vm_compute; reflexivity|]; split; [vm_compute; reflexivity|]; split; [vm_compute; reflexivity|]; vm_compute; reflexivity|].
  split.
  - replace (1 + IZR (10 ^ 19 + 10 ^ 20) / IZR (10 ^ 21))%R with (111 / 100)%R.
    + apply Rle_trans with (Rpower 2 1); [|rewrite Rpower_1; lra]. apply Rle_trans with (Rpower (111 / 100) 1).
      * unfold Rpower. apply RealTools.exp_le_compat, Rmult_le_compat_r; [rewrite <- ln_1; apply RealTools.ln_le_compat; lra|lra].
      * rewrite !Rpower_1; lra.
    + rewrite plus_IZR. change (10 ^ 19) with 10000000000000000000. change (10 ^ 20) with 100000000000000000000. change (10 ^ 21) with 1000000000000000000000. lra.
  - replace (1 - IZR 50 / IZR 1000)%R with (95 / 100)%R by lra. replace (1000000 / IZR 500000)%R with (INR 2) by (simpl; lra).
    rewrite Rpower_pow by lra. simpl. lra.
Qed.

(* C68: buying and selling back what was bought costs - without fees - two units and the rounding of the amount bought: twice the
   price of one flexible token (balance / (weight * supply)) *)
Theorem C68_buy_then_sell_costs_rounding : forall supply balance weight deposit bought got,
  0 <= deposit <= 3999999 * balance -> balance < 2 ^ 91 -> 4000000 <= weight * (supply + bought) ->
  calculate_purchase_return supply balance weight deposit = Ok bought ->
  calculate_sale_return (supply + bought) (balance + deposit) weight bought = Ok got ->
  (IZR deposit - 2 - 2 * IZR balance * (1000000 / IZR weight) / IZR (supply + bought) <= IZR got)%R.
Proof. exact round_trip_loss. Qed.
Print Assumptions C68_buy_then_sell_costs_rounding.

(* exchanging a connector for another and back: a unit and the rounding of the amount got *)
Theorem C68_cross_round_trip_costs_rounding : forall balance1 weight1 balance2 weight2 amount got back,
  0 <= amount <= 3999999 * balance1 -> balance2 <= 4000000 * (balance2 - got) ->
  2 < balance2 - got -> 8 * weight2 <= weight1 * (balance2 - got) ->
  calculate_cross_connector_return balance1 weight1 balance2 weight2 amount = Ok got ->
  calculate_cross_connector_return (balance2 - got) weight2 (balance1 + amount) weight1 got = Ok back ->
  (IZR amount - 1 - 4 * IZR balance1 * (IZR weight2 / IZR weight1) / IZR (balance2 - got) - IZR balance1 / 2 ^ 77 <= IZR back)%R.
Proof. exact cross_round_trip_loss. Qed.
Print Assumptions C68_cross_round_trip_costs_rounding.

(* 10 tokens of 10^18 units: one unit is lost in the first case, none in the second *)
Example C68_example :
  (exists r g, calculate_purchase_return (10 ^ 24) (10 ^ 21) 300000 (10 ^ 19) = Ok r /\ 4000000 <= 300000 * (10 ^ 24 + r) /\
     calculate_sale_return (10 ^ 24 + r) (10 ^ 21 + 10 ^ 19) 300000 r = Ok g /\ 10 ^ 19 - 1 <= g) /\
  (exists g h, calculate_cross_connector_return (10 ^ 24) 300000 (10 ^ 21) 500000 (10 ^ 19) = Ok g /\ 10 ^ 21 <= 4000000 * (10 ^ 21 - g) /\
     8 * 500000 <= 300000 * (10 ^ 21 - g) /\
     calculate_cross_connector_return (10 ^ 21 - g) 500000 (10 ^ 24 + 10 ^ 19) 300000 g = Ok h /\ 10 ^ 19 - 1000 <= h).
Proof.
  split; do 2 eexists; (split; [vm_compute; reflexivity|]).
  - split; [apply Z.leb_le; vm_compute; reflexivity|]. split; [vm_compute; reflexivity|]. apply Z.leb_le. vm_compute. reflexivity.
  - split; [apply Z.leb_le; vm_compute; reflexivity|]. split; [apply Z.leb_le; vm_compute; reflexivity|].
    split; [vm_compute; reflexivity|]. apply Z.leb_le. vm_compute. reflexivity.
Qed.
