(* What a purchase and the sale of what was bought costs, without fee. *)
From Coq Require Import ZArith List Lia Bool Reals Lra String.
From Verif Require Import Res FormulaConsts FormulaModel FormulaInt FormulaQuotes RealTools FormulaReal FormulaLower FormulaTrade FormulaAccuracy FormulaPropsProofs FormulaSplit.
Import ListNotations.
Local Open Scope R_scope.

Lemma exp_le_2 t : 0 <= t <= / 2 -> exp t <= 1 + 2 * t.
Proof.
  intros Ht. pose proof (exp_ge_lin (- t)) as X. rewrite exp_Ropp in X. pose proof (exp_pos t) as P.
  assert (exp t * (1 - t) <= 1) as M.
  { apply Rmult_le_compat_l with (r := exp t) in X; [|lra]. rewrite Rinv_r in X by lra. lra. }
  apply Rmult_le_reg_r with (1 - t); [lra|]. assert (0 <= t * (1 - 2 * t)) by (apply Rmult_le_pos; lra). lra.
Qed.

(* (1 + s) / (1 - q) to the power of k *)
Lemma ratio_power s q k : 0 <= s -> 0 <= q <= / 2 -> 0 <= k -> k * (s + 2 * q) <= / 2 ->
  Rpower ((1 + s) / (1 - q)) k <= 1 + 2 * (k * (s + 2 * q)).
Proof.
  intros Hs Hq Hk Ht. unfold Rpower. eapply Rle_trans; [|apply exp_le_2; split; [apply Rmult_le_pos; lra|exact Ht]].
  apply exp_le_compat, Rmult_le_compat_l; [exact Hk|]. rewrite ln_quot by lra.
  assert (ln (1 + s) <= s) as A. { rewrite <- (ln_exp s) at 2. apply ln_le_compat; [lra|apply exp_ge_lin]. }
  assert (- ln (1 - q) <= 2 * q) as B.
  { rewrite <- ln_Rinv by lra. rewrite <- (ln_exp (2 * q)). apply ln_le_compat; [apply Rinv_0_lt_compat; lra|].
    eapply Rle_trans; [|apply exp_ge_lin]. apply Rmult_le_reg_r with (1 - q); [lra|]. rewrite Rinv_l by lra.
    assert (0 <= q * (1 - 2 * q)) by (apply Rmult_le_pos; lra). lra. }
  lra.
Qed.

Lemma round_trip_loss S B w d r g : (0 <= d <= 3999999 * B)%Z -> (B < 2 ^ 91)%Z -> (4000000 <= w * (S + r))%Z ->
  calculate_purchase_return S B w d = Ok r -> calculate_sale_return (S + r) (B + d) w r = Ok g ->
  IZR d - 2 - 2 * IZR B * (1000000 / IZR w) / IZR (S + r) <= IZR g.
Proof.
  intros [Hd HdB] HB Hbig E1 E2.
  destruct (purchase_domain _ _ _ _ _ Hd E1) as (HS & HB0 & Hw & _).
  pose proof (purchase_value _ _ _ _ _ Hd E1) as (Hr & _).
  pose proof (purchase_lower _ _ _ _ _ Hd E1) as L1.
  pose proof (sale_lower (S + r) (B + d) w r g ltac:(lia) E2) as L2. clear E1 E2.
  assert (0 < IZR S) as PS by (apply IZR_lt; lia). assert (0 < IZR B) as PB by (apply IZR_lt; lia).
  assert (0 < IZR (S + r)) as PS' by (apply IZR_lt; lia). assert (0 < IZR w <= 1000000) as PW by (split; [apply IZR_lt|apply IZR_le]; lia).
  assert (0 <= IZR d) as PD by (apply IZR_le; lia).
  assert (IZR d <= 3999999 * IZR B) as HdB' by (rewrite <- mult_IZR; apply IZR_le; lia).
  set (k := 1000000 / IZR w) in *.
  assert (1 <= k <= 1000000) as Hk.
  { unfold k. split; apply Rmult_le_reg_r with (IZR w); try lra; replace (1000000 / IZR w * IZR w) with 1000000 by (field; lra); [lra|].
    assert (1 <= IZR w) by (apply IZR_le; lia). lra. }
  assert (k * / IZR (S + r) <= / 4) as Hks.
  { apply IZR_le in Hbig. rewrite mult_IZR in Hbig. unfold k. apply Rmult_le_reg_r with (IZR w * IZR (S + r)); [apply Rmult_lt_0_compat; lra|].
    replace (1000000 / IZR w * / IZR (S + r) * (IZR w * IZR (S + r))) with 1000000 by (field; lra). lra. }
  set (u := IZR d / IZR B) in *.
  assert (0 <= u <= 3999999) as Hu.
  { unfold u. split; [apply Rmult_le_pos; [lra|left; apply Rinv_0_lt_compat; lra]|].
    apply Rmult_le_reg_r with (IZR B); [lra|]. replace (IZR d / IZR B * IZR B) with (IZR d) by (field; lra). lra. }
  set (X := Rpower (1 + u) (IZR w / 1000000)) in *.
  assert (Rpower X k = 1 + u) as EX.
  { unfold X. rewrite Rpower_mult. replace (IZR w / 1000000 * k) with 1 by (unfold k; field; lra). apply Rpower_1. lra. }
  assert (0 < X <= 4000000) as HX.
  { split; [apply Rpower_pos|]. unfold X. apply Rle_trans with (Rpower (1 + u) 1); [|rewrite Rpower_1; lra].
    unfold Rpower. apply exp_le_compat, Rmult_le_compat_r; [rewrite <- ln_1; apply ln_le_compat; lra|]. lra. }
  clearbody X. pose proof (inv_pow2_pos 114) as Q. pose proof q100 as Q1.
  assert (IZR B * (4 * 1000000 * / 2 ^ 114 + 2 * / 2 ^ 100) <= 1 /\ 1000000 * (2 * / 2 ^ 114) <= / 4 /\ / 2 ^ 114 <= / 2) as (Hsm & Hsm2 & Hsm3).
  { apply IZR_lt in HB. replace (IZR (2 ^ 91)) with (2 ^ 91) in HB by (rewrite (pow_IZR 2 91); reflexivity).
    assert (/ 2 ^ 114 = / 8388608 * / 2 ^ 91) as E1 by (change 114%nat with (91 + 23)%nat; rewrite pow_add; replace (2 ^ 23) with 8388608 by lra; field).
    assert (/ 2 ^ 100 = / 512 * / 2 ^ 91) as E2 by (change 100%nat with (91 + 9)%nat; rewrite pow_add; replace (2 ^ 9) with 512 by lra; field).
    pose proof (inv_pow2_pos 91) as Q91. assert (IZR B * / 2 ^ 91 < 1) as K.
    { apply Rmult_lt_reg_r with (2 ^ 91); [apply pow_lt; lra|]. rewrite Rmult_assoc, Rinv_l, Rmult_1_r, Rmult_1_l by (apply pow_nonzero; lra). exact HB. }
    assert (/ 2 ^ 91 <= / 1048576) as K2. { apply Rinv_le_contravar; [lra|]. apply Rle_trans with (2 ^ 20); [lra|apply Rle_pow; [lra|lia]]. }
    rewrite E1, E2. clear E1 E2 Q Q1 L1 L2. set (z := / 2 ^ 91) in *. clearbody z. assert (0 <= IZR B * z) by (apply Rmult_le_pos; lra). repeat split; lra. }
  rewrite Rmin_left in L1 by (assert (0 <= X * / 2 ^ 114) by (apply Rmult_le_pos; lra); lra).
  remember (/ 2 ^ 114) as q eqn:Eq. clear Eq. remember (/ 2 ^ 100) as q' eqn:Eq'. clear Eq'.
  set (s := / IZR (S + r)) in *. assert (0 < s) as Ps by (apply Rinv_0_lt_compat; exact PS').
  assert (IZR S * X * (1 - q) <= IZR (S + r) + 1) as L1' by (rewrite plus_IZR; lra). clear L1.
  assert (0 < 1 - IZR r / IZR (S + r)) as Hpos.
  { apply Rmult_lt_reg_r with (IZR (S + r)); [lra|]. replace ((1 - IZR r / IZR (S + r)) * IZR (S + r)) with (IZR S) by (rewrite plus_IZR in *; field; lra). lra. }
  assert (1 - IZR r / IZR (S + r) <= (1 + s) / (1 - q) * / X) as HY.
  { replace (1 - IZR r / IZR (S + r)) with (IZR S * s) by (unfold s; rewrite plus_IZR in *; field; lra).
    apply Rmult_le_reg_r with (X * (1 - q)); [apply Rmult_lt_0_compat; lra|].
    replace ((1 + s) / (1 - q) * / X * (X * (1 - q))) with (1 + s) by (field; lra).
    replace (IZR S * s * (X * (1 - q))) with (IZR S * X * (1 - q) * s) by ring.
    apply Rle_trans with ((IZR (S + r) + 1) * s); [apply Rmult_le_compat_r; lra|]. unfold s. right. field. lra. }
  set (Y := Rpower (1 - IZR r / IZR (S + r)) k) in *.
  assert (k * (s + 2 * q) <= / 2) as Ht.
  { assert (k * (2 * q) <= 1000000 * (2 * q)) by (apply Rmult_le_compat_r; lra). lra. }
  assert (Y <= (1 + 2 * (k * (s + 2 * q))) * / (1 + u)) as HY2.
  { unfold Y. apply Rle_trans with (Rpower ((1 + s) / (1 - q) * / X) k).
    - unfold Rpower. apply exp_le_compat, Rmult_le_compat_l; [lra|]. apply ln_le_compat; assumption.
    - rewrite Rpower_split by (apply Rinv_0_lt_compat || apply Rdiv_lt_0_compat; lra). rewrite Rpower_inv_base, EX by lra.
      apply Rmult_le_compat_r; [left; apply Rinv_0_lt_compat; lra|]. apply ratio_power; lra. }
  set (t := k * (s + 2 * q)) in *. assert (0 <= t) as Ht0 by (unfold t; apply Rmult_le_pos; lra).
  assert (/ 4000000 <= / (1 + u)) as Hiu by (apply Rinv_le_contravar; lra).
  assert (Rmax (Y * (1 + q')) (/ 8000000) <= (1 + 2 * t + 2 * q') * / (1 + u)) as HM.
  { apply Rmax_lub.
    - apply Rle_trans with ((1 + 2 * t) * / (1 + u) * (1 + q')); [apply Rmult_le_compat_r; lra|].
      replace ((1 + 2 * t) * / (1 + u) * (1 + q')) with ((1 + 2 * t) * (1 + q') * / (1 + u)) by ring.
      apply Rmult_le_compat_r; [lra|]. assert (t * q' <= / 2 * q') by (apply Rmult_le_compat_r; lra). lra.
    - apply Rle_trans with (1 * / (1 + u)); [lra|]. apply Rmult_le_compat_r; lra. }
  eapply Rle_trans; [|exact L2].
  assert (0 < IZR (B + d)) as PBd by (apply IZR_lt; lia).
  assert (IZR (B + d) * Rmax (Y * (1 + q')) (/ 8000000) <= IZR B * (1 + 2 * t + 2 * q')) as HM2.
  { apply Rle_trans with (IZR (B + d) * ((1 + 2 * t + 2 * q') * / (1 + u))); [apply Rmult_le_compat_l; lra|].
    right. unfold u. rewrite plus_IZR in *. field. lra. }
  rewrite Rmult_minus_distr_l, Rmult_1_r. replace (IZR (B + d)) with (IZR B + IZR d) in * by (rewrite plus_IZR; reflexivity).
  replace (2 * IZR B * k / IZR (S + r)) with (2 * (IZR B * (k * s))) by (unfold s; field; lra).
  assert (IZR B * (k * q) <= IZR B * (1000000 * q)) as K5 by (apply Rmult_le_compat_l; [lra|]; apply Rmult_le_compat_r; lra).
  replace (IZR B * (1 + 2 * t + 2 * q')) with (IZR B + 2 * (IZR B * (k * s)) + 4 * (IZR B * (k * q)) + 2 * (IZR B * q')) in HM2 by (unfold t; ring).
  lra.
Qed.

Lemma cross_round_trip_loss b1 w1 b2 w2 x g h : (0 <= x <= 3999999 * b1)%Z -> (b2 <= 4000000 * (b2 - g))%Z ->
  (2 < b2 - g)%Z -> (8 * w2 <= w1 * (b2 - g))%Z ->
  calculate_cross_connector_return b1 w1 b2 w2 x = Ok g -> calculate_cross_connector_return (b2 - g) w2 (b1 + x) w1 g = Ok h ->
  IZR x - 1 - 4 * IZR b1 * (IZR w2 / IZR w1) / IZR (b2 - g) - IZR b1 / 2 ^ 77 <= IZR h.
Proof.
  intros [Hx Hxb] Hm4 Hm3 Hbig E1 E2.
  destruct (proj1 (cross_domain_iff _ _ _ _ _ Hx) (ex_intro _ _ E1)) as (Hb1 & Hb2 & Hw1 & Hw2 & _).
  pose proof (cross_value _ _ _ _ _ _ Hx E1) as (Hg & _).
  pose proof (cross_lower _ _ _ _ _ _ Hx E1) as L1.
  pose proof (cross_lower (b2 - g) w2 (b1 + x) w1 g h ltac:(lia) E2) as L2. clear E1 E2.
  assert (IZR (b2 - g) + IZR g = IZR b2) as Eb2 by (rewrite <- plus_IZR; f_equal; lia). rewrite Eb2 in L2.
  assert (0 < IZR b1) as P1 by (apply IZR_lt; lia). assert (0 < IZR b2) as P2 by (apply IZR_lt; lia).
  assert (1 <= IZR w1 <= 1000000) as PW1 by (split; apply IZR_le; lia). assert (1 <= IZR w2 <= 1000000) as PW2 by (split; apply IZR_le; lia).
  assert (0 <= IZR x) as PX by (apply IZR_le; lia).
  assert (IZR x <= 3999999 * IZR b1) as HxB by (rewrite <- mult_IZR; apply IZR_le; lia).
  assert (3 <= IZR (b2 - g)) as Pm by (apply IZR_le; lia).
  assert (IZR b2 <= 4000000 * IZR (b2 - g)) as Pm4 by (rewrite <- mult_IZR; apply IZR_le; lia).
  set (k := IZR w2 / IZR w1) in *. set (j := IZR w1 / IZR w2) in *.
  assert (0 < k <= 1000000) as Hk.
  { unfold k. split; [apply Rdiv_lt_0_compat; lra|]. apply Rmult_le_reg_r with (IZR w1); [lra|].
    replace (IZR w2 / IZR w1 * IZR w1) with (IZR w2) by (field; lra). lra. }
  assert (k * (2 * / IZR (b2 - g)) <= / 4) as Hks.
  { apply IZR_le in Hbig. rewrite !mult_IZR in Hbig. unfold k. apply Rmult_le_reg_r with (IZR w1 * IZR (b2 - g)); [apply Rmult_lt_0_compat; lra|].
    replace (IZR w2 / IZR w1 * (2 * / IZR (b2 - g)) * (IZR w1 * IZR (b2 - g))) with (2 * IZR w2) by (field; lra). lra. }
  set (v := IZR b1 / (IZR b1 + IZR x)) in *.
  assert (/ 4000000 <= v <= 1) as Hv.
  { unfold v. split; apply Rmult_le_reg_r with (IZR b1 + IZR x); try lra; replace (IZR b1 / (IZR b1 + IZR x) * (IZR b1 + IZR x)) with (IZR b1) by (field; lra); lra. }
  set (Z := Rpower v j) in *.
  assert (Rpower Z k = v) as EZ.
  { unfold Z. rewrite Rpower_mult. replace (j * k) with 1 by (unfold j, k; field; lra). apply Rpower_1. lra. }
  assert (0 < Z) as HZ0 by apply Rpower_pos. clearbody Z.
  pose proof q100 as Q1. pose proof (inv_pow2_pos 100) as Q0.
  assert (IZR b1 * (4 * 1000000 * / 2 ^ 100 + 2 * / 2 ^ 100) <= IZR b1 / 2 ^ 77 /\ 1000000 * (2 * / 2 ^ 100) <= / 4 /\ / 2 ^ 100 <= / 8) as (Hsm & Hsm2 & Hsm3).
  { assert (/ 2 ^ 100 = / 8388608 * / 2 ^ 77) as E1 by (change 100%nat with (77 + 23)%nat; rewrite pow_add; replace (2 ^ 23) with 8388608 by lra; field).
    pose proof (inv_pow2_pos 77) as Q77.
    assert (/ 2 ^ 77 <= / 1048576) as K2. { apply Rinv_le_contravar; [lra|]. apply Rle_trans with (2 ^ 20); [lra|apply Rle_pow; [lra|lia]]. }
    unfold Rdiv. rewrite E1. clear E1 Q0 Q1 L1 L2. set (z := / 2 ^ 77) in *. clearbody z. assert (0 <= IZR b1 * z) by (apply Rmult_le_pos; lra). repeat split; lra. }
  remember (/ 2 ^ 100) as q eqn:Eq. clear Eq.
  assert (IZR (b2 - g) <= IZR b2 * (Z * (1 + q)) + 1) as L1'.
  { assert (IZR (b2 - g) <= IZR b2 * Rmax (Z * (1 + q)) (/ 8000000) + 1) as M by lra.
    destruct (Rle_or_lt (/ 8000000) (Z * (1 + q))) as [C|C]; [rewrite Rmax_left in M by lra; exact M|].
    exfalso. rewrite Rmax_right in M by lra. lra. }
  clear L1. set (m := IZR (b2 - g)) in *. set (s := 2 * / m) in *.
  assert (0 < / m) as Pim by (apply Rinv_0_lt_compat; lra).
  assert (0 < s) as Ps by (unfold s; lra).
  assert (0 < m / IZR b2) as Hpos by (apply Rdiv_lt_0_compat; lra).
  assert (m / IZR b2 <= (1 + s) / (1 - q) * Z) as HY.
  { apply Rle_trans with (Z * (1 + q) * (1 + s)).
    - apply Rmult_le_reg_r with (IZR b2); [lra|]. replace (m / IZR b2 * IZR b2) with m by (field; lra).
      replace (Z * (1 + q) * (1 + s) * IZR b2) with (IZR b2 * (Z * (1 + q)) * (1 + s)) by ring.
      apply Rle_trans with ((m - 1) * (1 + s)); [|apply Rmult_le_compat_r; lra].
      replace ((m - 1) * (1 + s)) with (m + 1 - 2 * / m) by (unfold s; field; lra).
      assert (/ m <= / 2) by (apply Rinv_le_contravar; lra). lra.
    - replace ((1 + s) / (1 - q) * Z) with (Z * / (1 - q) * (1 + s)) by (field; lra).
      apply Rmult_le_compat_r; [lra|]. apply Rmult_le_compat_l; [lra|].
      apply Rmult_le_reg_r with (1 - q); [lra|]. rewrite Rinv_l by lra. assert (0 <= q * q) by (apply Rmult_le_pos; lra). lra. }
  set (Y := Rpower (m / IZR b2) k) in *.
  assert (k * (s + 2 * q) <= / 2) as Ht.
  { assert (k * (2 * q) <= 1000000 * (2 * q)) by (apply Rmult_le_compat_r; lra). lra. }
  assert (Y <= (1 + 2 * (k * (s + 2 * q))) * v) as HY2.
  { unfold Y. apply Rle_trans with (Rpower ((1 + s) / (1 - q) * Z) k).
    - unfold Rpower. apply exp_le_compat, Rmult_le_compat_l; [lra|]. apply ln_le_compat; assumption.
    - rewrite Rpower_split by (exact HZ0 || apply Rdiv_lt_0_compat; lra). rewrite EZ.
      apply Rmult_le_compat_r; [lra|]. apply ratio_power; lra. }
  set (t := k * (s + 2 * q)) in *. assert (0 <= t) as Ht0 by (unfold t; apply Rmult_le_pos; lra).
  assert (Rmax (Y * (1 + q)) (/ 8000000) <= (1 + 2 * t + 2 * q) * v) as HM.
  { apply Rmax_lub.
    - apply Rle_trans with ((1 + 2 * t) * v * (1 + q)); [apply Rmult_le_compat_r; lra|].
      replace ((1 + 2 * t) * v * (1 + q)) with ((1 + 2 * t) * (1 + q) * v) by ring.
      apply Rmult_le_compat_r; [lra|]. assert (t * q <= / 2 * q) by (apply Rmult_le_compat_r; lra). lra.
    - apply Rle_trans with (1 * v); [lra|]. apply Rmult_le_compat_r; lra. }
  eapply Rle_trans; [|exact L2].
  assert (0 < IZR (b1 + x)) as PBd by (apply IZR_lt; lia).
  assert (IZR (b1 + x) * Rmax (Y * (1 + q)) (/ 8000000) <= IZR b1 * (1 + 2 * t + 2 * q)) as HM2.
  { apply Rle_trans with (IZR (b1 + x) * ((1 + 2 * t + 2 * q) * v)); [apply Rmult_le_compat_l; lra|].
    right. unfold v. rewrite plus_IZR in *. field. lra. }
  rewrite Rmult_minus_distr_l, Rmult_1_r. replace (IZR (b1 + x)) with (IZR b1 + IZR x) in * by (rewrite plus_IZR; reflexivity).
  replace (4 * IZR b1 * k / m) with (2 * (IZR b1 * (k * s))) by (unfold s; field; lra).
  assert (IZR b1 * (k * q) <= IZR b1 * (1000000 * q)) as K5 by (apply Rmult_le_compat_l; [lra|]; apply Rmult_le_compat_r; lra).
  replace (IZR b1 * (1 + 2 * t + 2 * q)) with (IZR b1 + 2 * (IZR b1 * (k * s)) + 4 * (IZR b1 * (k * q)) + 2 * (IZR b1 * q)) in HM2 by (unfold t; ring).
  lra.
Qed.
