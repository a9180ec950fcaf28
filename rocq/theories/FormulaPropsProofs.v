(* Reformulations used by Properties_Formula.v, and concrete instances of the hypotheses. *)
From Coq Require Import ZArith List String Lia Bool Reals Lra.
From Verif Require Import Res FormulaConsts FormulaModel FormulaInt FormulaQuotes RealTools FormulaReal FormulaTrade
  GeneratorModel GeneratorProofs.
Import ListNotations.
Local Open Scope Z_scope.

Lemma purchase_domain_iff supply balance weight deposit : 0 <= deposit ->
  ((exists r, calculate_purchase_return supply balance weight deposit = Ok r) <->
   (0 < supply /\ 0 < balance /\ 1 <= weight <= 1000000 /\
    (deposit = 0 \/ weight = 1000000 \/ deposit + balance < 2 ^ 129))).
Proof.
  intros Hd. split.
  - intros [r E]. eapply purchase_domain; eassumption.
  - intros (H1 & H2 & H3 & H4). destruct (purchase_valid _ _ _ _ H1 H2 H3 Hd H4) as (r & E & _). exists r. exact E.
Qed.

Lemma purchase_value supply balance weight deposit r : 0 <= deposit ->
  calculate_purchase_return supply balance weight deposit = Ok r ->
  0 <= r /\ (deposit = 0 -> r = 0) /\ (weight = 1000000 -> r = supply * deposit / balance).
Proof.
  intros Hd E. destruct (purchase_domain _ _ _ _ _ Hd E) as (H1 & H2 & H3 & H4).
  destruct (purchase_valid _ _ _ _ H1 H2 H3 Hd H4) as (r' & E' & A & B & C & _).
  rewrite E in E'. apply Ok_inj in E'. subst r'. auto.
Qed.

Lemma sale_domain_iff supply balance weight amount : 0 <= amount ->
  ((exists r, calculate_sale_return supply balance weight amount = Ok r) <->
   (0 < supply /\ 0 < balance /\ 1 <= weight <= 1000000 /\ amount <= supply /\
    (amount = 0 \/ amount = supply \/ weight = 1000000 \/ supply < 2 ^ 129))).
Proof.
  intros Hd. split.
  - intros [r E]. eapply sale_domain; eassumption.
  - intros (H1 & H2 & H3 & H4 & H5).
    destruct (sale_valid _ _ _ _ H1 H2 H3 (conj Hd H4) H5) as (r & E & _). exists r. exact E.
Qed.

Lemma sale_value supply balance weight amount r : 0 <= amount ->
  calculate_sale_return supply balance weight amount = Ok r ->
  0 <= r <= balance /\ (r = balance <-> amount = supply) /\ (amount = 0 -> r = 0) /\
  (weight = 1000000 -> r = balance * amount / supply).
Proof.
  intros Hd E. destruct (sale_domain _ _ _ _ _ Hd E) as (H1 & H2 & H3 & H4 & H5).
  destruct (sale_valid _ _ _ _ H1 H2 H3 (conj Hd H4) H5) as (r' & E' & A & B & C & D & _).
  rewrite E in E'. apply Ok_inj in E'. subst r'. auto.
Qed.

Lemma cross_domain_iff B1 w1 B2 w2 a : 0 <= a ->
  ((exists r, calculate_cross_connector_return B1 w1 B2 w2 a = Ok r) <->
   (0 < B1 /\ 0 < B2 /\ 1 <= w1 <= 1000000 /\ 1 <= w2 <= 1000000 /\ (w1 = w2 \/ B1 + a < 2 ^ 129))).
Proof.
  intros Ha. split.
  - intros [r E]. eapply cross_domain; eassumption.
  - intros (H1 & H2 & H3 & H4 & H5).
    destruct (cross_valid _ _ _ _ _ H1 H2 H3 H4 Ha H5) as (r & E & _). exists r. exact E.
Qed.

Lemma cross_value B1 w1 B2 w2 a r : 0 <= a ->
  calculate_cross_connector_return B1 w1 B2 w2 a = Ok r ->
  0 <= r < B2 /\ (w1 = w2 -> r = B2 * a / (B1 + a)).
Proof.
  intros Ha E. destruct (cross_domain _ _ _ _ _ _ Ha E) as (H1 & H2 & H3 & H4 & H5).
  destruct (cross_valid _ _ _ _ _ H1 H2 H3 H4 Ha H5) as (r' & E' & A & B & _).
  rewrite E in E'. apply Ok_inj in E'. subst r'. auto.
Qed.

Lemma power_total base_n base_d exp_n exp_d :
  0 < base_d <= base_n -> base_n < 2 ^ 129 -> 0 <= exp_n -> 0 < exp_d ->
  exists result precision, power base_n base_d exp_n exp_d = Ok (result, precision) /\
     0 <= precision <= 127 /\ 2 ^ precision <= result.
Proof. intros. apply power_ok; assumption. Qed.

Lemma power_upper_bound base_n base_d exp_n exp_d result precision :
  0 < base_d <= base_n -> 0 <= exp_n -> 0 < exp_d ->
  power base_n base_d exp_n exp_d = Ok (result, precision) ->
  (IZR result / IZR (2 ^ precision) <=
     Rpower (IZR base_n / IZR base_d) (IZR exp_n / IZR exp_d)
     * exp (IZR exp_n / IZR exp_d * (8 / 2 ^ 127)))%R.
Proof. intros. rewrite <- F_pow. apply power_Rpower; assumption. Qed.

Lemma table_nth i v : nth_error max_exp_array (Z.to_nat i) = Some (Some v) -> table i = v.
Proof. unfold table. intros ->. reflexivity. Qed.

Lemma nth_table i : 32 <= i <= 127 -> nth_error max_exp_array (Z.to_nat i) = Some (Some (table i)).
Proof.
  intros H. unfold table.
  assert (forallb (fun n => match nth_error max_exp_array n with Some (Some _) => true | _ => false end)
                  (seq 32 96) = true) as A by (vm_compute; reflexivity).
  rewrite forallb_forall in A.
  specialize (A (Z.to_nat i)). rewrite in_seq in A. specialize (A ltac:(lia)).
  destruct (nth_error max_exp_array (Z.to_nat i)) as [[v|]|]; try discriminate. reflexivity.
Qed.

Lemma find_position_correct x :
  exists p, find_position_in_max_exp_array x = Ok p /\
    ((p = 0 /\ forall i v, 32 <= i <= 127 -> nth_error max_exp_array (Z.to_nat i) = Some (Some v) -> v < x) \/
     (32 <= p <= 127 /\ (exists v, nth_error max_exp_array (Z.to_nat p) = Some (Some v) /\ x <= v) /\
      forall i v, p < i <= 127 -> nth_error max_exp_array (Z.to_nat i) = Some (Some v) -> v < x)).
Proof.
  destruct (find_position_spec x) as (p & E & [[-> H]|(H1 & H2 & H3)]).
  - exists 0. split; [exact E|]. left. split; [reflexivity|].
    intros i v Hi Hv. apply table_nth in Hv. subst v. apply H. exact Hi.
  - exists p. split; [exact E|]. right. split; [exact H1|]. split.
    + exists (table p). split; [apply nth_table; exact H1|exact H2].
    + intros i v Hi Hv. apply table_nth in Hv. subst v. apply H3. exact Hi.
Qed.

Lemma floor_log2_correct n : 1 <= n < 2 ^ 256 ->
  exists k, floor_log2 n = Ok k /\ 0 <= k /\ 2 ^ k <= n < 2 ^ (k + 1).
Proof.
  intros H. exists (Z.log2 n). split; [apply floor_log2_ok; exact H|].
  split; [apply Z.log2_nonneg|]. apply Z.log2_spec. lia.
Qed.

Lemma general_exp_fits p x v : 32 <= p <= 127 ->
  nth_error max_exp_array (Z.to_nat p) = Some (Some v) ->
  (0 <= x <= Z.shiftr v (127 - p) ->
     g_general_exp x (get_coefficients 34) p = Ok (general_exp x p)) /\
  (Z.shiftr v (127 - p) < x -> exists e, g_general_exp x (get_coefficients 34) p = Err e).
Proof.
  intros Hp Hv. apply table_nth in Hv. subst v.
  change (get_coefficients 34) with (get_coefficients G_NUM_OF_COEFFICIENTS). rewrite coefficients_generated.
  split; intros Hx.
  - apply general_exp_no_overflow; assumption.
  - apply general_exp_overflow_beyond; assumption.
Qed.

Lemma max_exp_array_generated p : 32 <= p <= 127 ->
  exists v, nth_error max_exp_array (Z.to_nat p) = Some (Some v) /\
            max_exp_entry_shl (get_coefficients 34) p = Ok v.
Proof.
  intros Hp. exists (table p). split; [apply nth_table; exact Hp|].
  change (get_coefficients 34) with (get_coefficients G_NUM_OF_COEFFICIENTS). apply table_generated. exact Hp.
Qed.

Lemma scaling_factors_generated :
  FIXED_1 = Z.shiftl 1 127 /\ FIXED_2 = Z.shiftl 2 127 /\ MAX_NUM = Z.shiftl 1 (256 - 127).
Proof. repeat split. Qed.

Lemma log_lo_terms_gen :
  g_log_lo_terms ((OPT_LOG_MAX_VAL, FIXED_1) :: map (fun t => (snd t, snd (fst t))) optimal_log_hi) FIXED_1
  = Ok optimal_log_lo.
Proof. vm_compute. reflexivity. Qed.

Lemma purchase_not_monotone :
  exists supply balance weight d1 d2 r1 r2, d1 < d2 /\
    calculate_purchase_return supply balance weight d1 = Ok r1 /\
    calculate_purchase_return supply balance weight d2 = Ok r2 /\ r2 < r1.
Proof.
  exists 1000000, 1000, 500000, 78962960182679695, 78962960182679696, 8886109520507, 8885575393478.
  split; [reflexivity|]. split; [vm_compute; reflexivity|]. split; [vm_compute; reflexivity|]. reflexivity.
Qed.

Lemma sale_not_monotone :
  exists supply balance weight s1 s2 r1 r2, s1 < s2 /\
    calculate_sale_return supply balance weight s1 = Ok r1 /\
    calculate_sale_return supply balance weight s2 = Ok r2 /\ r2 < r1.
Proof.
  exists (2 ^ 128), (10 ^ 30), 1000, 5401193100966091674191826718296629694, 5401193100966091674191826718296629695,
    999999887464825280740885486224, 999999887458060601006987024444.
  split; [reflexivity|]. split; [vm_compute; reflexivity|]. split; [vm_compute; reflexivity|]. reflexivity.
Qed.

Lemma cross_not_monotone :
  exists b1 w1 b2 w2 a1 a2 r1 r2, a1 < a2 /\
    calculate_cross_connector_return b1 w1 b2 w2 a1 = Ok r1 /\
    calculate_cross_connector_return b1 w1 b2 w2 a2 = Ok r2 /\ r2 < r1.
Proof.
  exists (10 ^ 6), 900000, (10 ^ 18), 100000, 4916693, 4916694, 999999887464724171, 999999887458130670.
  split; [reflexivity|]. split; [vm_compute; reflexivity|]. split; [vm_compute; reflexivity|]. reflexivity.
Qed.

Lemma monotone_special :
  (forall supply balance d1 d2 r1 r2, 0 <= d1 <= d2 ->
     calculate_purchase_return supply balance 1000000 d1 = Ok r1 ->
     calculate_purchase_return supply balance 1000000 d2 = Ok r2 -> r1 <= r2) /\
  (forall supply balance s1 s2 r1 r2, 0 <= s1 <= s2 ->
     calculate_sale_return supply balance 1000000 s1 = Ok r1 ->
     calculate_sale_return supply balance 1000000 s2 = Ok r2 -> r1 <= r2) /\
  (forall b1 b2 w a1 a2 r1 r2, 0 <= a1 <= a2 ->
     calculate_cross_connector_return b1 w b2 w a1 = Ok r1 ->
     calculate_cross_connector_return b1 w b2 w a2 = Ok r2 -> r1 <= r2).
Proof.
  split; [|split].
  - intros S B d1 d2 r1 r2 H E1 E2.
    assert (0 <= d1) as Hd1 by lia. destruct (purchase_domain _ _ _ _ _ Hd1 E1) as (H1 & H2 & _).
    apply purchase_value in E1, E2; try lia. destruct E1 as (_ & _ & E1). destruct E2 as (_ & _ & E2).
    rewrite E1, E2 by reflexivity. apply Z.div_le_mono; nia.
  - intros S B d1 d2 r1 r2 H E1 E2.
    assert (0 <= d1) as Hd1 by lia. destruct (sale_domain _ _ _ _ _ Hd1 E1) as (H1 & H2 & _).
    apply sale_value in E1, E2; try lia. destruct E1 as (_ & _ & _ & E1). destruct E2 as (_ & _ & _ & E2).
    rewrite E1, E2 by reflexivity. apply Z.div_le_mono; nia.
  - intros B1 B2 w a1 a2 r1 r2 H E1 E2.
    assert (0 <= a1) as Hd1 by lia. destruct (cross_domain _ _ _ _ _ _ Hd1 E1) as (H1 & H2 & _).
    apply cross_value in E1, E2; try lia. destruct E1 as (_ & E1). destruct E2 as (_ & E2).
    rewrite E1, E2 by reflexivity.
    (* b2 a1/(b1+a1) <= b2 a2/(b1+a2) *)
    apply Z.div_le_lower_bound; [lia|].
    assert (B2 * a1 / (B1 + a1) * (B1 + a1) <= B2 * a1) as L by (rewrite Z.mul_comm; apply Z.mul_div_le; lia).
    assert (0 <= B2 * a1 / (B1 + a1)) as N by (apply Z.div_pos; nia).
    assert (B2 * a1 / (B1 + a1) <= B2) as U.
    { apply Z.lt_le_incl. apply Z.div_lt_upper_bound; nia. }
    nia.
Qed.

(* ---------- the hypotheses are met by realistic inputs ---------- *)
(* a deposit of 5000 tokens (18 decimals) into a 33.3% connector, and the sale of what was bought *)
Example purchase_instance : calculate_purchase_return (10 ^ 24) (3 * 10 ^ 23) 333000 (5 * 10 ^ 21) = Ok 5519433807240034164418.
Proof. vm_compute. reflexivity. Qed.
Example sale_instance :
  calculate_sale_return (10 ^ 24 + 5519433807240034164418) (3 * 10 ^ 23 + 5 * 10 ^ 21) 333000 5519433807240034164418
  = Ok 4999999999999999999999.
Proof. vm_compute. reflexivity. Qed.
Example cross_instance : calculate_cross_connector_return (10 ^ 24) 250000 (7 * 10 ^ 20) 500000 (10 ^ 22) = Ok 3473966853007605034.
Proof. vm_compute. reflexivity. Qed.
Example cross_back_instance :
  calculate_cross_connector_return (7 * 10 ^ 20 - 3473966853007605034) 500000 (10 ^ 24 + 10 ^ 22) 250000 3473966853007605034
  = Ok 9999999999999999999114.
Proof. vm_compute. reflexivity. Qed.
(* the general (low precision) branch is reached as well: precision 61 *)
Example power_general_instance : power (10 ^ 17 + 1000) 1000 500000 1000000 = Ok (23056839438566128491479132, 61).
Proof. vm_compute. reflexivity. Qed.
Example search_instance : binary_search (fun x => x <=? 12345) = Ok 12345.
Proof. vm_compute. reflexivity. Qed.
