(* A purchase at a balance lowered by the amount paid (converter.py get_purchase_return with _isExecution, see C40), followed by
   the sale of the tokens bought: the profit, for every weight. *)
From Coq Require Import ZArith Lia Bool Reals Lra Psatz.
From Verif Require Import Res FormulaConsts FormulaModel FormulaQuotes FormulaReal FormulaLower FormulaAccuracy FormulaPropsProofs.
Local Open Scope R_scope.

(* in exact arithmetic the profit is a^2 / B, whatever the weight W and the supply S *)
Lemma ideal_round_trip S B a W : 0 < S -> 0 < a < B -> 0 < W ->
  let r := S * (Rpower (1 + a / (B - a)) W - 1) in
  (B + a) * (1 - Rpower (1 - r / (S + r)) (1 / W)) = a + a * a / B.
Proof.
  intros HS Ha HW r. assert (0 < Rpower (1 + a / (B - a)) W) as HP by (unfold Rpower; apply exp_pos).
  assert (1 + a / (B - a) = B / (B - a)) as E by (field; lra).
  assert (1 - r / (S + r) = / Rpower (1 + a / (B - a)) W) as E2. { unfold r. field. split; [lra|]. replace (S + S * (Rpower (1 + a / (B - a)) W - 1)) with (S * Rpower (1 + a / (B - a)) W) by ring. nra. }
  rewrite E2, <- Rpower_Ropp, Rpower_mult. replace (- W * (1 / W)) with (- (1)) by (field; lra). rewrite Rpower_Ropp, E.
  rewrite Rpower_1 by (apply Rdiv_lt_0_compat; lra). field. lra.
Qed.

(* Bernoulli *)
Lemma bernoulli x y : 0 <= x < 1 -> 1 <= y -> 1 - y * x <= Rpower (1 - x) y.
Proof.
  intros Hx Hy. destruct (Rle_lt_dec (1 - y * x) 0) as [C|C]; [apply Rle_trans with 0; [exact C|]; unfold Rpower; left; apply exp_pos|].
  unfold Rpower. rewrite <- (exp_ln (1 - y * x)) by exact C.
  destruct (Rle_lt_dec (ln (1 - y * x)) (y * ln (1 - x))) as [D|D]; [destruct D as [D|D]; [left; now apply exp_increasing|rewrite D; lra]|]. exfalso.
  (* ln is concave: 1 - x = (1/y) (1 - yx) + (1 - 1/y) 1 *)
  assert (forall u v : R, 0 < u -> 0 < v -> ln v <= ln u + (v - u) / u) as T.
  { intros u v Hu Hv.
    assert (ln v = ln u + ln (v / u)) as -> by (unfold Rdiv; rewrite ln_mult, ln_Rinv; [lra|lra|lra|now apply Rinv_0_lt_compat]).
    assert (0 < v / u) by (apply Rdiv_lt_0_compat; lra).
    assert (ln (v / u) <= v / u - 1). { destruct (Rle_lt_dec (ln (v / u)) (v / u - 1)) as [K|K]; [exact K|]. apply exp_increasing in K. rewrite exp_ln in K by assumption. pose proof (exp_ge_lin (v / u - 1)). lra. }
    replace ((v - u) / u) with (v / u - 1) by (field; lra). lra. }
  pose proof (T (1 - x) (1 - y * x) ltac:(lra) C) as T1. pose proof (T (1 - x) 1 ltac:(lra) ltac:(lra)) as T2. rewrite ln_1 in T2.
  set (l := ln (1 - x)) in *. set (m := ln (1 - y * x)) in *.
  replace ((1 - y * x - (1 - x)) / (1 - x)) with (- (y - 1) * (x / (1 - x))) in T1 by (field; lra).
  replace ((1 - (1 - x)) / (1 - x)) with (x / (1 - x)) in T2 by (field; lra).
  assert ((y - 1) * l >= (y - 1) * (- (x / (1 - x)))) by (apply Rmult_ge_compat_l; lra). nra.
Qed.
Lemma Rpower_le_base x y z : 0 < x <= y -> 0 <= z -> Rpower x z <= Rpower y z.
Proof.
  intros [Hx [H| ->]] Hz; [|lra]. unfold Rpower. destruct Hz as [Hz| <-]; [|rewrite !Rmult_0_l; lra].
  left. apply exp_increasing. apply Rmult_lt_compat_l; [exact Hz|]. apply ln_increasing; lra.
Qed.
(* with the approximations and roundings of the formula: for all weights, supplies, balances and amounts *)
Lemma round_trip_profit S B a w r p : (0 < a < B)%Z -> (B <= 8000000 * (B - a))%Z ->
  calculate_purchase_return S (B - a) w a = Ok r -> calculate_sale_return (S + r) (B + a) w r = Ok p ->
  IZR a + IZR a * IZR a / IZR B - 1 - 4 * IZR B * (/ 2 ^ 94 + 1000000 / (IZR w * IZR S)) <= IZR p.
Proof.
  intros Ha Hc E1 E2. destruct (purchase_domain _ _ _ _ _ (Z.lt_le_incl _ _ (proj1 Ha)) E1) as (HS & _ & Hw & _).
  destruct (purchase_value _ _ _ _ _ (Z.lt_le_incl _ _ (proj1 Ha)) E1) as (Hr & _).
  destruct (sale_value _ _ _ _ _ Hr E2) as ([Hp _] & _).
  apply purchase_lower in E1; [|lia]. apply sale_lower in E2; [|lia].
  rewrite plus_IZR in E2. rewrite minus_IZR in E1. rewrite !plus_IZR in E2.
  destruct Ha as [Ha1 Ha2]. apply IZR_lt in Ha1, Ha2, HS. apply IZR_le in Hr, Hp, Hc. rewrite mult_IZR, minus_IZR in Hc. destruct Hw as [Hw1 Hw2]. apply IZR_le in Hw1, Hw2.
  set (s := IZR S) in *. set (b := IZR B) in *. set (x := IZR a) in *. set (v := IZR w) in *. set (u := IZR r) in *. set (q := IZR p) in *. clearbody s b x v u q. clear S B a w r p.
  assert (0 < / 2 ^ 114 <= / 2 ^ 94 / 1000000) as [He1 He1'].
  { split; [apply inv_pow2_pos|]. change 114%nat with (94 + 20)%nat. rewrite pow_add, Rinv_mult. pose proof (inv_pow2_pos 94). unfold Rdiv. apply Rmult_le_compat_l; [lra|]. apply Rinv_le_contravar; [lra|]. simpl. lra. }
  assert (0 < / 2 ^ 100 <= / 2 ^ 94 / 4) as [He2 He2'].
  { split; [apply inv_pow2_pos|]. change 100%nat with (94 + 6)%nat. rewrite pow_add, Rinv_mult. pose proof (inv_pow2_pos 94). unfold Rdiv. apply Rmult_le_compat_l; [lra|]. apply Rinv_le_contravar; [lra|]. simpl. lra. }
  assert (0 < / 2 ^ 94 <= / 4) as [He3 He3'].
  { split; [apply inv_pow2_pos|]. replace 4 with (2 ^ 2) by lra. apply Rinv_le_contravar; [apply pow_lt; lra|apply Rle_pow; [lra|lia]]. }
  remember (/ 2 ^ 114) as e1 eqn:D1. remember (/ 2 ^ 100) as e2 eqn:D2. remember (/ 2 ^ 94) as e3 eqn:D3. clear D1 D2 D3.
  set (W := v / 1000000) in *. assert (0 < W <= 1) as HW by (unfold W; lra).
  replace (1000000 / v) with (/ W) in E2 by (unfold W; field; lra).
  assert (1000000 / (v * s) = / W * / s) as E3 by (unfold W; field; lra). rewrite E3. clear E3.
  assert (1 <= / W) as HW1. { rewrite <- Rinv_1 at 1. apply Rinv_le_contravar; lra. }
  assert (e1 * / W <= e3) as He4. { unfold W. replace (e1 * / (v / 1000000)) with (e1 * 1000000 / v) by (field; lra). apply Rmult_le_reg_r with v; [lra|]. replace (e1 * 1000000 / v * v) with (e1 * 1000000) by (field; lra). nra. }
  clearbody W. clear Hw1 Hw2 v.
  assert (0 < / s) as Hs by now apply Rinv_0_lt_compat.
  set (t := e3 + / W * / s) in *. assert (0 < t) as Ht by (unfold t; nra).
  assert (x * x / b < b) as Hxb. { apply Rmult_lt_reg_r with b; [lra|]. replace (x * x / b * b) with (x * x) by (field; lra). nra. }
  destruct (Rle_lt_dec 1 (2 * t)) as [C|C]; [assert (b * 1 <= b * (2 * t)) by (apply Rmult_le_compat_l; lra); lra|].
  set (n := e1 + / s). assert (n * / W <= t) as Hn by (unfold n, t; lra). assert (0 < n) as Hn0 by (unfold n; lra). assert (n <= t) as Hnt by nra.
  set (X := 1 + x / (b - x)) in *. assert (X = b / (b - x)) as EX by (unfold X; field; lra).
  assert (1 < X <= 8000000) as [HX1 HX2].
  { split; [unfold X; assert (0 < x / (b - x)) by (apply Rdiv_lt_0_compat; lra); lra|]. rewrite EX. apply Rmult_le_reg_r with (b - x); [lra|]. replace (b / (b - x) * (b - x)) with b by (field; lra). lra. }
  set (P := Rpower X W) in *. assert (1 <= P) as HP1. { unfold P. rewrite <- (Rpower_O X) by lra. apply Rle_Rpower; lra. }
  assert (P <= X) as HP2. { unfold P. rewrite <- (Rpower_1 X) at 2 by lra. apply Rle_Rpower; lra. }
  rewrite Rmin_left in E1 by nra.
  assert (s * P * (1 - n) <= s + u) as HU. { unfold n. assert (1 <= s * P * / s) by (replace (s * P * / s) with P by (field; lra); lra). nra. }
  assert (0 < s * P * (1 - n)) as HU0. { apply Rmult_lt_0_compat; [nra|lra]. }
  assert (Rpower (1 - u / (s + u)) (/ W) <= / X * (1 + 2 * t)) as HQ.
  { replace (1 - u / (s + u)) with (s / (s + u)) by (field; lra).
    apply Rle_trans with (Rpower (/ (P * (1 - n))) (/ W)).
    - apply Rpower_le_base; [|lra]. split; [apply Rdiv_lt_0_compat; lra|]. apply Rmult_le_reg_r with ((s + u) * (P * (1 - n))); [apply Rmult_lt_0_compat; nra|].
      replace (s / (s + u) * ((s + u) * (P * (1 - n)))) with (s * P * (1 - n)) by (field; lra).
      replace (/ (P * (1 - n)) * ((s + u) * (P * (1 - n)))) with (s + u) by (field; lra). lra.
    - assert (0 < P * (1 - n)) as HPn by nra. replace (Rpower (/ (P * (1 - n))) (/ W)) with (/ Rpower (P * (1 - n)) (/ W)).
      2: { unfold Rpower. rewrite ln_Rinv by exact HPn. replace (/ W * - ln (P * (1 - n))) with (- (/ W * ln (P * (1 - n)))) by ring. rewrite exp_Ropp. reflexivity. }
      rewrite Rpower_mult_distr' || rewrite <- Rpower_mult_distr by lra. unfold P. rewrite Rpower_mult, Rinv_r, Rpower_1 by lra. rewrite Rinv_mult.
      apply Rmult_le_compat_l; [left; apply Rinv_0_lt_compat; lra|].
      pose proof (bernoulli n (/ W) ltac:(lra) HW1) as HB. apply Rle_trans with (/ (1 - t)); [apply Rinv_le_contravar; lra|].
      apply Rmult_le_reg_r with (1 - t); [lra|]. rewrite Rinv_l by lra. nra. }
  assert (0 < / X) as HX3 by (apply Rinv_0_lt_compat; lra).
  assert (Rmax (Rpower (1 - u / (s + u)) (/ W) * (1 + e2)) (/ 8000000) <= / X * (1 + 3 * t)) as HM.
  { apply Rmax_lub.
    - apply Rle_trans with (/ X * (1 + 2 * t) * (1 + e2)); [apply Rmult_le_compat_r; lra|]. rewrite Rmult_assoc. apply Rmult_le_compat_l; [lra|].
      assert (e2 <= t / 4) by (unfold t; nra). nra.
    - apply Rle_trans with (/ X); [apply Rinv_le_contravar; lra|]. nra. }
  assert ((b + x) * (1 - / X * (1 + 3 * t)) - 1 <= q) as HF.
  { eapply Rle_trans; [|exact E2]. apply Rplus_le_compat_r. apply Rmult_le_compat_l; lra. }
  eapply Rle_trans; [|exact HF]. rewrite EX. replace (/ (b / (b - x))) with (1 - x / b) by (field; lra).
  replace (x * x / b) with (x * (x / b)) by (unfold Rdiv; ring). assert (b * (x / b) = x) as Eb by (field; lra).
  set (f := x / b) in *. assert (0 < f < 1) as Hf by (split; [unfold f; apply Rdiv_lt_0_compat; lra|apply Rmult_lt_reg_r with b; [lra|]; unfold f; replace (x / b * b) with x by (field; lra); lra]).
  clearbody f. rewrite <- Eb. assert (0 <= b * t) by (apply Rmult_le_pos; lra). assert (0 <= b * t * (f * f)) by (apply Rmult_le_pos; nra). nra.
Qed.
