(* Property theorems about the formula (C01 - C12, C61, C63).  Nothing but statements, [exact] and assumptions. *)
From Coq Require Import ZArith List String Reals Lra.
From Verif Require Import Res FormulaConsts FormulaModel FormulaInt FormulaQuotes FormulaReal FormulaLower FormulaLarge FormulaTrade FormulaAccuracy PoolSpec FormulaSequence
  GeneratorModel GeneratorProofs GeneratorReal FormulaPropsProofs.
Import ListNotations.
Local Open Scope Z_scope.

(* C01: the accepted inputs, and the value's range and special cases *)
Theorem C01_purchase_domain : forall supply balance weight deposit, 0 <= deposit ->
  ((exists r, calculate_purchase_return supply balance weight deposit = Ok r) <->
   (0 < supply /\ 0 < balance /\ 1 <= weight <= 1000000 /\
    (deposit = 0 \/ weight = 1000000 \/ deposit + balance < 2 ^ 129))).
Proof. exact purchase_domain_iff. Qed.
Print Assumptions C01_purchase_domain.

Theorem C01_purchase_value : forall supply balance weight deposit r, 0 <= deposit ->
  calculate_purchase_return supply balance weight deposit = Ok r ->
  0 <= r /\ (deposit = 0 -> r = 0) /\ (weight = 1000000 -> r = supply * deposit / balance).
Proof. exact purchase_value. Qed.
Print Assumptions C01_purchase_value.

(* C02 *)
Theorem C02_sale_domain : forall supply balance weight amount, 0 <= amount ->
  ((exists r, calculate_sale_return supply balance weight amount = Ok r) <->
   (0 < supply /\ 0 < balance /\ 1 <= weight <= 1000000 /\ amount <= supply /\
    (amount = 0 \/ amount = supply \/ weight = 1000000 \/ supply < 2 ^ 129))).
Proof. exact sale_domain_iff. Qed.
Print Assumptions C02_sale_domain.

Theorem C02_sale_value : forall supply balance weight amount r, 0 <= amount ->
  calculate_sale_return supply balance weight amount = Ok r ->
  0 <= r <= balance /\ (r = balance <-> amount = supply) /\ (amount = 0 -> r = 0) /\
  (weight = 1000000 -> r = balance * amount / supply).
Proof. exact sale_value. Qed.
Print Assumptions C02_sale_value.

(* C03 *)
Theorem C03_cross_domain : forall from_balance from_weight to_balance to_weight amount, 0 <= amount ->
  ((exists r, calculate_cross_connector_return from_balance from_weight to_balance to_weight amount = Ok r) <->
   (0 < from_balance /\ 0 < to_balance /\ 1 <= from_weight <= 1000000 /\ 1 <= to_weight <= 1000000 /\
    (from_weight = to_weight \/ from_balance + amount < 2 ^ 129))).
Proof. exact cross_domain_iff. Qed.
Print Assumptions C03_cross_domain.

Theorem C03_cross_value : forall from_balance from_weight to_balance to_weight amount r, 0 <= amount ->
  calculate_cross_connector_return from_balance from_weight to_balance to_weight amount = Ok r ->
  0 <= r < to_balance /\
  (from_weight = to_weight -> r = to_balance * amount / (from_balance + amount)).
Proof. exact cross_value. Qed.
Print Assumptions C03_cross_value.

(* C04: [Rpower x y] is the real power x^y of Coq's standard library *)
Theorem C04_power_total : forall base_n base_d exp_n exp_d,
  0 < base_d <= base_n -> base_n < 2 ^ 129 -> 0 <= exp_n -> 0 < exp_d ->
  exists result precision, power base_n base_d exp_n exp_d = Ok (result, precision) /\
     0 <= precision <= 127 /\ 2 ^ precision <= result.
Proof. exact power_total. Qed.
Print Assumptions C04_power_total.

Theorem C04_power_upper_bound : forall base_n base_d exp_n exp_d result precision,
  0 < base_d <= base_n -> 0 <= exp_n -> 0 < exp_d ->
  power base_n base_d exp_n exp_d = Ok (result, precision) ->
  (IZR result / IZR (2 ^ precision) <=
     Rpower (IZR base_n / IZR base_d) (IZR exp_n / IZR exp_d)
     * exp (IZR exp_n / IZR exp_d * (8 / 2 ^ 127)))%R.
Proof. exact power_upper_bound. Qed.
Print Assumptions C04_power_upper_bound.

(* C05 *)
Theorem C05_buy_then_sell_never_profits : forall supply balance weight deposit bought got,
  0 <= deposit -> balance < 2 ^ 104 ->
  calculate_purchase_return supply balance weight deposit = Ok bought ->
  calculate_sale_return (supply + bought) (balance + deposit) weight bought = Ok got ->
  got <= deposit.
Proof. exact buy_sell_no_profit. Qed.
Print Assumptions C05_buy_then_sell_never_profits.

(* C06 *)
Theorem C06_cross_round_trip_never_profits : forall balance1 weight1 balance2 weight2 amount got back,
  0 <= amount -> balance1 < 2 ^ 104 ->
  calculate_cross_connector_return balance1 weight1 balance2 weight2 amount = Ok got ->
  calculate_cross_connector_return (balance2 - got) weight2 (balance1 + amount) weight1 got = Ok back ->
  back <= amount.
Proof. exact cross_round_trip_no_profit. Qed.
Print Assumptions C06_cross_round_trip_never_profits.

(* C07: the formulas are those of the docstrings *)
Theorem C07_purchase_at_most_documented : forall supply balance weight deposit r, 0 <= deposit ->
  calculate_purchase_return supply balance weight deposit = Ok r ->
  (IZR supply + IZR r <=
     IZR supply * Rpower (1 + IZR deposit / IZR balance) (IZR weight / 1000000) * exp (8 / 2 ^ 127))%R.
Proof. exact purchase_upper. Qed.
Print Assumptions C07_purchase_at_most_documented.

Theorem C07_sale_at_most_documented : forall supply balance weight amount r, 0 <= amount < supply ->
  calculate_sale_return supply balance weight amount = Ok r ->
  (IZR r <= IZR balance * (1 - Rpower (1 - IZR amount / IZR supply) (1000000 / IZR weight))
            + IZR balance / 2 ^ 104)%R.
Proof. exact sale_upper. Qed.
Print Assumptions C07_sale_at_most_documented.

Theorem C07_cross_at_most_documented : forall balance1 weight1 balance2 weight2 amount r, 0 <= amount ->
  calculate_cross_connector_return balance1 weight1 balance2 weight2 amount = Ok r ->
  (IZR r <= IZR balance2 * (1 - Rpower (IZR balance1 / (IZR balance1 + IZR amount)) (IZR weight1 / IZR weight2))
            + IZR balance2 / 2 ^ 104)%R.
Proof. exact cross_upper. Qed.
Print Assumptions C07_cross_at_most_documented.

(* C08: [nth_error max_exp_array i = Some (Some v)] says that the table has value v at i *)
Theorem C08_find_position : forall x,
  exists p, find_position_in_max_exp_array x = Ok p /\
    ((p = 0 /\ forall i v, 32 <= i <= 127 -> nth_error max_exp_array (Z.to_nat i) = Some (Some v) -> v < x) \/
     (32 <= p <= 127 /\ (exists v, nth_error max_exp_array (Z.to_nat p) = Some (Some v) /\ x <= v) /\
      forall i v, p < i <= 127 -> nth_error max_exp_array (Z.to_nat i) = Some (Some v) -> v < x)).
Proof. exact find_position_correct. Qed.
Print Assumptions C08_find_position.

(* C09 *)
Theorem C09_floor_log2 : forall n, 1 <= n < 2 ^ 256 ->
  exists k, floor_log2 n = Ok k /\ 0 <= k /\ 2 ^ k <= n < 2 ^ (k + 1).
Proof. exact floor_log2_correct. Qed.
Print Assumptions C09_floor_log2.

(* C10: [g_general_exp] is the scripts' general_exp, which fails as soon as an intermediate value reaches 2^256 *)
Theorem C10_general_exp_fits_256_bits : forall p x v, 32 <= p <= 127 ->
  nth_error max_exp_array (Z.to_nat p) = Some (Some v) ->
  (0 <= x <= Z.shiftr v (127 - p) ->
     g_general_exp x (get_coefficients 34) p = Ok (general_exp x p)) /\
  (Z.shiftr v (127 - p) < x -> exists e, g_general_exp x (get_coefficients 34) p = Err e).
Proof. exact general_exp_fits. Qed.
Print Assumptions C10_general_exp_fits_256_bits.

(* C11 *)
Theorem C11_binary_search_correct : forall func,
  func 0 = true ->
  (forall x y, 0 <= x <= y -> y < 2 ^ 256 -> func y = true -> func x = true) ->
  exists r, binary_search func = Ok r /\ 0 <= r < 2 ^ 256 /\ func r = true /\
            forall x, r < x < 2 ^ 256 -> func x = false.
Proof. exact binary_search_max. Qed.
Print Assumptions C11_binary_search_correct.

Theorem C11_general_exp_coefficients :
  get_coefficients 34 = general_exp_divisor :: general_exp_coefs.
Proof. exact coefficients_generated. Qed.
Print Assumptions C11_general_exp_coefficients.

Theorem C11_max_exp_array : forall p, 32 <= p <= 127 ->
  exists v, nth_error max_exp_array (Z.to_nat p) = Some (Some v) /\
            max_exp_entry_shl (get_coefficients 34) p = Ok v.
Proof. exact max_exp_array_generated. Qed.
Print Assumptions C11_max_exp_array.

Theorem C11_scaling_factors :
  FIXED_1 = Z.shiftl 1 127 /\ FIXED_2 = Z.shiftl 2 127 /\ MAX_NUM = Z.shiftl 1 (256 - 127).
Proof. exact scaling_factors_generated. Qed.
Print Assumptions C11_scaling_factors.

Theorem C11_optimal_log_low_terms :
  g_log_lo_terms ((OPT_LOG_MAX_VAL, FIXED_1) :: map (fun t => (snd t, snd (fst t))) optimal_log_hi) FIXED_1
  = Ok optimal_log_lo.
Proof. exact log_lo_terms_gen. Qed.
Print Assumptions C11_optimal_log_low_terms.

Theorem C11_optimal_exp_low_terms :
  g_exp_lo_terms optimal_exp_hi OPT_EXP_MAX_VAL FIXED_1 = Ok (optimal_exp_divisor :: optimal_exp_coefs).
Proof. exact exp_lo_terms_generated. Qed.
Print Assumptions C11_optimal_exp_low_terms.

(* [log_hi_terms], [exp_hi_terms], [ln2_numerator] and [ln2_denominator] (GeneratorReal.v) say of a list or a number that the
   script, computing with 100-digit Decimals (DecimalModel.v), may arrive at it *)
Theorem C11_optimal_log_high_terms : forall terms,
  log_hi_terms terms <-> terms = (FIXED_1, OPT_LOG_MAX_VAL) :: map (fun t => (snd (fst t), fst (fst t))) optimal_log_hi.
Proof. exact log_hi_generated. Qed.
Print Assumptions C11_optimal_log_high_terms.

Theorem C11_optimal_exp_high_terms :
  exists num den, forall terms, exp_hi_terms terms <-> terms = optimal_exp_hi ++ [(OPT_EXP_MAX_VAL, num, den)].
Proof. exact exp_hi_generated. Qed.
Print Assumptions C11_optimal_exp_high_terms.

Theorem C11_ln2_fraction :
  (forall v, ln2_numerator v <-> v = LN2_NUMERATOR) /\ (forall v, ln2_denominator v <-> v = LN2_DENOMINATOR).
Proof. exact ln2_generated. Qed.
Print Assumptions C11_ln2_fraction.

(* C12: the claim "a larger amount never yields less" is false of the code for all three quotes *)
Theorem C12_monotone_purchase_refuted :
  exists supply balance weight d1 d2 r1 r2, d1 < d2 /\
    calculate_purchase_return supply balance weight d1 = Ok r1 /\
    calculate_purchase_return supply balance weight d2 = Ok r2 /\ r2 < r1.
Proof. exact purchase_not_monotone. Qed.
Print Assumptions C12_monotone_purchase_refuted.

Theorem C12_monotone_sale_refuted :
  exists supply balance weight s1 s2 r1 r2, s1 < s2 /\
    calculate_sale_return supply balance weight s1 = Ok r1 /\
    calculate_sale_return supply balance weight s2 = Ok r2 /\ r2 < r1.
Proof. exact sale_not_monotone. Qed.
Print Assumptions C12_monotone_sale_refuted.

Theorem C12_monotone_cross_refuted :
  exists b1 w1 b2 w2 a1 a2 r1 r2, a1 < a2 /\
    calculate_cross_connector_return b1 w1 b2 w2 a1 = Ok r1 /\
    calculate_cross_connector_return b1 w1 b2 w2 a2 = Ok r2 /\ r2 < r1.
Proof. exact cross_not_monotone. Qed.
Print Assumptions C12_monotone_cross_refuted.

(* ... and true on the exactly computed special cases *)
Theorem C12_monotone_special_cases :
  (forall supply balance d1 d2 r1 r2, 0 <= d1 <= d2 ->
     calculate_purchase_return supply balance 1000000 d1 = Ok r1 ->
     calculate_purchase_return supply balance 1000000 d2 = Ok r2 -> r1 <= r2) /\
  (forall supply balance s1 s2 r1 r2, 0 <= s1 <= s2 ->
     calculate_sale_return supply balance 1000000 s1 = Ok r1 ->
     calculate_sale_return supply balance 1000000 s2 = Ok r2 -> r1 <= r2) /\
  (forall b1 b2 w a1 a2 r1 r2, 0 <= a1 <= a2 ->
     calculate_cross_connector_return b1 w b2 w a1 = Ok r1 ->
     calculate_cross_connector_return b1 w b2 w a2 = Ok r2 -> r1 <= r2).
Proof. exact monotone_special. Qed.
Print Assumptions C12_monotone_special_cases.

(* ... and up to one unit for all amounts that grow a reserve or the supply less than 8,000,000-fold *)
Theorem C12_purchase_monotone_up_to_one_unit : forall supply balance weight d1 d2 r1 r2,
  0 <= d1 <= d2 -> balance + d2 <= 8000000 * balance -> supply + r1 < 2 ^ 113 ->
  calculate_purchase_return supply balance weight d1 = Ok r1 ->
  calculate_purchase_return supply balance weight d2 = Ok r2 -> r1 <= r2 + 1.
Proof. exact purchase_near_monotone. Qed.
Print Assumptions C12_purchase_monotone_up_to_one_unit.

Theorem C12_sale_monotone_up_to_one_unit : forall supply balance weight s1 s2 r1 r2,
  0 <= s1 <= s2 -> s2 < supply -> balance < 2 ^ 99 ->
  (/ 8000000 <= Rpower (1 - IZR s2 / IZR supply) (1000000 / IZR weight))%R ->
  calculate_sale_return supply balance weight s1 = Ok r1 ->
  calculate_sale_return supply balance weight s2 = Ok r2 -> r1 <= r2 + 1.
Proof. exact sale_near_monotone. Qed.
Print Assumptions C12_sale_monotone_up_to_one_unit.

Theorem C12_cross_monotone_up_to_one_unit : forall balance1 weight1 balance2 weight2 a1 a2 r1 r2,
  0 <= a1 <= a2 -> balance2 < 2 ^ 99 ->
  (/ 8000000 <= Rpower (IZR balance1 / (IZR balance1 + IZR a2)) (IZR weight1 / IZR weight2))%R ->
  calculate_cross_connector_return balance1 weight1 balance2 weight2 a1 = Ok r1 ->
  calculate_cross_connector_return balance1 weight1 balance2 weight2 a2 = Ok r2 -> r1 <= r2 + 1.
Proof. exact cross_near_monotone. Qed.
Print Assumptions C12_cross_monotone_up_to_one_unit.

Example C12_examples :
  (0 <= 70 <= 1000 /\ 10 ^ 21 + 1000 <= 8000000 * 10 ^ 21 /\
   exists r1 r2, calculate_purchase_return (10 ^ 24) (10 ^ 21) 300000 70 = Ok r1 /\ 10 ^ 24 + r1 < 2 ^ 113 /\
                 calculate_purchase_return (10 ^ 24) (10 ^ 21) 300000 1000 = Ok r2) /\
  ((/ 8000000 <= Rpower (1 - IZR 900 / IZR 1000) (1000000 / IZR 500000))%R /\
   exists r1 r2, calculate_sale_return 1000 70000 500000 800 = Ok r1 /\ calculate_sale_return 1000 70000 500000 900 = Ok r2) /\
  ((/ 8000000 <= Rpower (IZR 1000 / (IZR 1000 + IZR 9000)) (IZR 600000 / IZR 300000))%R /\
   exists r1 r2, calculate_cross_connector_return 1000 600000 70000 300000 800 = Ok r1 /\
                 calculate_cross_connector_return 1000 600000 70000 300000 9000 = Ok r2).
Proof.
  assert (forall x y, (/ 10 = x)%R -> (y = 2)%R -> (/ 8000000 <= Rpower x y)%R) as Q.
  { intros x y <- ->. change 2%R with (INR 2). rewrite Rpower_pow by lra. simpl. lra. }
  split; [|split].
  - split; [split; vm_compute; discriminate|]. split; [vm_compute; discriminate|]. eexists. eexists. split; [vm_compute; reflexivity|].
    split; vm_compute; reflexivity.
  - split; [apply Q; lra|]. eexists. eexists. split; vm_compute; reflexivity.
  - split; [apply Q; lra|]. eexists. eexists. split; vm_compute; reflexivity.
Qed.

(* C63: the same bounds from below.  The power is accurate to a relative 2^-114 for exponents up to 1 (purchases) and 2^-101
   for exponents up to 1,000,000 (any weights); a power above 8,000,000 is only known to be computed as at least that *)
Theorem C63_power_lower_bound : forall base_n base_d exp_n exp_d result precision,
  0 < base_d <= base_n -> 0 <= exp_n -> 0 < exp_d -> exp_n <= 1000000 * exp_d ->
  power base_n base_d exp_n exp_d = Ok (result, precision) ->
  let x := Rpower (IZR base_n / IZR base_d) (IZR exp_n / IZR exp_d) in
  (Rmin (x * (1 - / 2 ^ (if exp_n <=? exp_d then 114 else 101))) 8000000 <= IZR result / IZR (2 ^ precision))%R.
Proof. exact power_lower_bound. Qed.
Print Assumptions C63_power_lower_bound.

Theorem C63_purchase_at_least_documented : forall supply balance weight deposit r, 0 <= deposit ->
  calculate_purchase_return supply balance weight deposit = Ok r ->
  (IZR supply * Rmin (Rpower (1 + IZR deposit / IZR balance) (IZR weight / 1000000) * (1 - / 2 ^ 114)) 8000000
     - IZR supply - 1 <= IZR r)%R.
Proof. exact purchase_lower. Qed.
Print Assumptions C63_purchase_at_least_documented.

Theorem C63_sale_at_least_documented : forall supply balance weight amount r, 0 <= amount < supply ->
  calculate_sale_return supply balance weight amount = Ok r ->
  (IZR balance * (1 - Rmax (Rpower (1 - IZR amount / IZR supply) (1000000 / IZR weight) * (1 + / 2 ^ 100)) (/ 8000000)) - 1
     <= IZR r)%R.
Proof. exact sale_lower. Qed.
Print Assumptions C63_sale_at_least_documented.

Theorem C63_cross_at_least_documented : forall balance1 weight1 balance2 weight2 amount r, 0 <= amount ->
  calculate_cross_connector_return balance1 weight1 balance2 weight2 amount = Ok r ->
  (IZR balance2 * (1 - Rmax (Rpower (IZR balance1 / (IZR balance1 + IZR amount)) (IZR weight1 / IZR weight2) * (1 + / 2 ^ 100)) (/ 8000000)) - 1
     <= IZR r)%R.
Proof. exact cross_lower. Qed.
Print Assumptions C63_cross_at_least_documented.

(* For large powers, e^16 and more, the exponential is replaced by its Taylor polynomial of degree 33, *)
Definition taylor33 (t : R) : R := sum_f_R0 (fun k => / INR (fact k) * t ^ k)%R 33.

(* computed to a relative 2^-30 up to e^56, and never less than a third of it; it is also never more *)
Theorem C63_large_power : forall base_n base_d exp_n exp_d result precision,
  0 < base_d <= base_n -> 0 <= exp_n -> 0 < exp_d -> exp_n <= 1000000 * exp_d ->
  power base_n base_d exp_n exp_d = Ok (result, precision) ->
  let y := (IZR exp_n / IZR exp_d * ln (IZR base_n / IZR base_d))%R in (16 <= y)%R ->
  ((y <= 56 -> taylor33 y * (1 - / 2 ^ 30) <= IZR result / IZR (2 ^ precision)) /\
   taylor33 y / 3 <= IZR result / IZR (2 ^ precision) /\
   (17 <= y -> IZR result / IZR (2 ^ precision) <=
               taylor33 (IZR exp_n / IZR exp_d * (ln (IZR base_n / IZR base_d) + 8 / 2 ^ 127))))%R.
Proof.
  intros bn bd en ed r p H1 H2 H3 H4 E y Hy. destruct (power_taylor_lower bn bd en ed r p H1 H2 H3 H4 E Hy) as [A B].
  split; [exact A|]. split; [exact B|]. intros Hy'. rewrite <- F_pow. exact (power_taylor_upper bn bd en ed r p H1 H2 H3 H4 E Hy').
Qed.
Print Assumptions C63_large_power.

(* so it is with purchases: deposits of more than e^16 - 1 times the connector balance *)
Theorem C63_large_purchase : forall supply balance weight deposit r, 0 < deposit -> weight < 1000000 ->
  calculate_purchase_return supply balance weight deposit = Ok r ->
  let y := (IZR weight / 1000000 * ln (1 + IZR deposit / IZR balance))%R in
  ((16 <= y <= 56 -> IZR supply * (taylor33 y * (1 - / 2 ^ 30)) - IZR supply - 1 <= IZR r) /\
   (16 <= y -> IZR supply * (taylor33 y / 3) - IZR supply - 1 <= IZR r) /\
   (17 <= y -> IZR r <= IZR supply * taylor33 (y + 8 / 2 ^ 127) - IZR supply))%R.
Proof. intros S B w d r Hd Hw E y. rewrite <- F_pow. exact (purchase_large S B w d r Hd Hw E). Qed.
Print Assumptions C63_large_purchase.

(* and the documented formula is then missed by far: this buyer gets less than a 20000th of what it promises *)
Theorem C63_huge_deposit_refuted : exists supply balance weight deposit r,
  calculate_purchase_return supply balance weight deposit = Ok r /\
  (IZR r < / 20000 * (IZR supply * (Rpower (1 + IZR deposit / IZR balance) (IZR weight / 1000000) - 1)))%R.
Proof. exists (10 ^ 24), (2 ^ 20), 900000, ((2 ^ 100 - 1) * 2 ^ 20). exact huge_deposit. Qed.
Print Assumptions C63_huge_deposit_refuted.

Example C63_large_example : exists r p, power (2 ^ 70) 1 1 1 = Ok (r, p) /\
  (17 <= IZR 1 / IZR 1 * ln (IZR (2 ^ 70) / IZR 1) <= 56)%R.
Proof. exact large_example. Qed.

Example C63_examples :
  (exists r p, power 3 2 5 7 = Ok (r, p)) /\ (exists r p, power (10 ^ 30) 1 1000000 1000000 = Ok (r, p)) /\
  (exists r, calculate_purchase_return (10 ^ 24) (10 ^ 21) 300000 (10 ^ 19) = Ok r) /\
  (exists r, calculate_sale_return (10 ^ 24) (10 ^ 21) 300000 (10 ^ 19) = Ok r) /\
  (exists r, calculate_cross_connector_return (10 ^ 24) 300000 (10 ^ 21) 500000 (10 ^ 19) = Ok r).
Proof.
  split; [do 2 eexists; vm_compute; reflexivity|]. split; [do 2 eexists; vm_compute; reflexivity|].
  split; [eexists; vm_compute; reflexivity|]. split; eexists; vm_compute; reflexivity.
Qed.

(* C61: no sequence of trades, by however many traders, drains a converter.  [trades conns weight n p q]: n purchases, sales
   and cross conversions, each paying at most the formula's quote, lead from supply and reserves p to q (PoolSpec.v).
   The weighted geometric mean of the reserves never falls against the supply, except for rounding: *)
Theorem C61_value_never_falls : forall (I : Type) (conns : list I) (weight : I -> Z) n p q,
  NoDup conns -> (forall i, In i conns -> 1 <= weight i <= 1000000) ->
  funded conns p -> trades conns weight n p q -> 0 < supply q ->
  (1000000 * (ln (IZR (supply q)) - ln (IZR (supply p))) - INR n * (8000000 / 2 ^ 127)
   <= fold_right Rplus 0 (map (fun i => IZR (weight i) * (ln (IZR (reserve_of q i)) - ln (IZR (reserve_of p i)))) conns))%R.
Proof. intros. apply trades_value; assumption. Qed.
Print Assumptions C61_value_never_falls.

(* so no reserve shrinks unless flexible tokens were given up or another reserve grew, *)
Theorem C61_reserve_never_drained : forall (I : Type) (conns : list I) (weight : I -> Z) n p q j,
  NoDup conns -> (forall i, In i conns -> 1 <= weight i <= 1000000) ->
  funded conns p -> trades conns weight n p q -> In j conns -> Z.of_nat n * reserve_of p j * 8000000 < weight j * 2 ^ 127 ->
  supply p <= supply q -> (forall k, In k conns -> k <> j -> reserve_of q k <= reserve_of p k) ->
  reserve_of p j <= reserve_of q j.
Proof. intros. eapply reserve_kept; eassumption. Qed.
Print Assumptions C61_reserve_never_drained.

(* and no flexible tokens come out unless some reserve grew *)
Theorem C61_no_tokens_for_free : forall (I : Type) (conns : list I) (weight : I -> Z) n p q,
  NoDup conns -> (forall i, In i conns -> 1 <= weight i <= 1000000) ->
  funded conns p -> trades conns weight n p q -> Z.of_nat n * supply q * 8 < 2 ^ 127 ->
  (forall k, In k conns -> reserve_of q k <= reserve_of p k) -> supply q <= supply p.
Proof. intros. eapply supply_kept; eassumption. Qed.
Print Assumptions C61_no_tokens_for_free.

(* two connectors; a purchase with the first, a sale for the second, an exchange of the second for the first: supply and
   first reserve are as before, the second reserve has grown *)
Example C61_example :
  let conns := [true; false] in let weight := fun b : bool => if b then 300000 else 500000 in
  let pool s x y := Pool s (fun b : bool => if b then x else y) in
  let p := pool 1000000000000 1000000000 5000000000 in let q := pool 1000000000000 1000000000 5000001398 in
  NoDup conns /\ (forall i, In i conns -> 1 <= weight i <= 1000000) /\ funded conns p /\ trades conns weight 3 p q /\
  3 * reserve_of p false * 8000000 < weight false * 2 ^ 127 /\ 3 * supply q * 8 < 2 ^ 127.
Proof.
  cbv zeta. split; [repeat constructor; intros []; try discriminate; try assumption; destruct H|]. split; [intros [] _; split; discriminate|].
  split; [split; [reflexivity|intros [] _; reflexivity]|]. split; [|split; reflexivity].
  assert (forall b : bool, In b [true; false]) as Hin by (intros []; cbn; tauto).
  apply one_more_trade with (q := Pool 1000000000000 (fun b : bool => if b then 1001000000 else 4997002398)).
  - apply one_more_trade with (q := Pool 1000299895059 (fun b : bool => if b then 1001000000 else 5000000000)).
    + apply one_more_trade with (q := Pool 1000000000000 (fun b : bool => if b then 1000000000 else 5000000000)); [constructor; reflexivity|].
      apply purchase with (i := true) (d := 1000000) (r := 299895059) (got := 299895059); [apply Hin|discriminate|vm_compute; reflexivity|split; discriminate|reflexivity|].
      split; [reflexivity|]. intros [] Hk; [contradiction|reflexivity].
    + apply sale with (i := false) (s := 299895059) (r := 2997602) (got := 2997602); [apply Hin|discriminate|vm_compute; reflexivity|split; discriminate|reflexivity|].
      split; [reflexivity|]. intros [] Hk; [reflexivity|contradiction].
  - apply cross with (i := false) (j := true) (a := 2999000) (r := 1000465) (got := 1000000) (f := fun b : bool => if b then 1001000000 else 5000001398);
      [apply Hin|apply Hin|discriminate|discriminate|vm_compute; reflexivity|split; discriminate|reflexivity| |].
    + split; [reflexivity|]. intros [] Hk; [reflexivity|contradiction].
    + split; [reflexivity|]. intros [] Hk; [contradiction|reflexivity].
Qed.
