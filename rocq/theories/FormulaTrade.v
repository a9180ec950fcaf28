(* Consequences for trades: no profit from round trips, quotes bounded by the documented real formulas. *)
From Coq Require Import ZArith List Lia Bool Reals Lra String.
From Verif Require Import Res FormulaConsts FormulaModel FormulaInt FormulaQuotes RealTools FormulaReal.
Import ListNotations.
Local Open Scope R_scope.

Lemma exp_ge_1x x : 1 + x <= exp x.
Proof. destruct (Req_dec x 0) as [->|N]; [rewrite exp_0; lra|left; apply exp_ineq1; exact N]. Qed.

Lemma power_Rpower bn bd en ed r p : (0 < bd <= bn)%Z -> (0 <= en)%Z -> (0 < ed)%Z ->
  power bn bd en ed = Ok (r, p) ->
  IZR r / IZR (2 ^ p) <= Rpower (IZR bn / IZR bd) (IZR en / IZR ed) * exp (IZR en / IZR ed * (8 / F)).
Proof.
  intros. unfold Rpower. rewrite <- exp_plus.
  eapply Rle_trans; [eapply power_upper; eassumption|]. right. f_equal. ring.
Qed.

Lemma IZR_pow2_pos p : (0 <= p)%Z -> 0 < IZR (2 ^ p).
Proof. intros. apply IZR_lt. apply Z.pow_pos_nonneg; lia. Qed.

(* (B r - B 2^p)/r <= B - B/T when r/2^p <= T *)
Lemma reduce_upper B r p T : (0 < B)%Z -> (0 <= p)%Z -> (2 ^ p <= r)%Z -> IZR r / IZR (2 ^ p) <= T ->
  IZR ((B * r - B * 2 ^ p) / r) <= IZR B - IZR B / T.
Proof.
  intros HB Hp Hr HT.
  assert (0 < IZR B) by (apply IZR_lt; lia).
  pose proof (IZR_pow2_pos p Hp) as P2.
  assert (0 < 2 ^ p)%Z by (apply Z.pow_pos_nonneg; lia).
  assert (0 < IZR r) as Hr' by (apply IZR_lt; lia).
  eapply Rle_trans; [apply IZR_div_le; lia|].
  rewrite minus_IZR, !mult_IZR.
  replace ((IZR B * IZR r - IZR B * IZR (2 ^ p)) / IZR r) with (IZR B - IZR B * (IZR (2 ^ p) / IZR r)) by (field; lra).
  assert (0 < IZR r / IZR (2 ^ p)) by (apply Rdiv_lt_0_compat; lra).
  assert (/ T <= IZR (2 ^ p) / IZR r) as K.
  { replace (IZR (2 ^ p) / IZR r) with (/ (IZR r / IZR (2 ^ p))) by (field; lra).
    apply Rinv_le_contravar; assumption. }
  unfold Rdiv at 2. nra.
Qed.

Lemma no_profit_arith B d v eps : (0 < B)%Z -> (0 <= d)%Z -> 0 <= eps -> IZR B * eps < 1 ->
  IZR v <= IZR (B + d) - IZR (B + d) / (IZR (B + d) / IZR B * exp eps) -> (v <= d)%Z.
Proof.
  intros HB Hd He Hs H.
  assert (0 < IZR B) by (apply IZR_lt; lia).
  assert (0 < IZR (B + d)) by (apply IZR_lt; lia).
  assert (IZR (B + d) / (IZR (B + d) / IZR B * exp eps) = IZR B * exp (- eps)) as E.
  { rewrite exp_Ropp. pose proof (exp_pos eps). field. repeat split; lra. }
  rewrite E in H. pose proof (exp_ge_1x (- eps)) as X.
  assert (IZR v < IZR (d + 1)) as L.
  { rewrite plus_IZR in *. nra. }
  apply lt_IZR in L. lia.
Qed.

Lemma eps_small (B k : Z) : (0 < B < 2 ^ 104)%Z -> (1 <= k <= 1000000)%Z ->
  forall j, (1 <= j <= 1000000)%Z -> IZR B * (8 / F + IZR j / IZR k * (8 / F)) < 1.
Proof.
  intros HB Hk j Hj. pose proof F_pos as HF.
  assert (IZR B <= IZR (2 ^ 104)) by (apply IZR_le; lia).
  assert (0 < IZR B) by (apply IZR_lt; lia).
  assert (1 <= IZR k) by (apply IZR_le; lia).
  assert (0 < IZR j <= 1000000) by (split; [apply IZR_lt|apply IZR_le]; lia).
  assert (IZR j / IZR k <= 1000000) as Q.
  { apply Rmult_le_reg_r with (IZR k); [lra|]. unfold Rdiv. rewrite Rmult_assoc, Rinv_l, Rmult_1_r by lra. nra. }
  apply Rmult_lt_reg_r with F; [exact HF|].
  replace (IZR B * (8 / F + IZR j / IZR k * (8 / F)) * F) with (IZR B * (8 + 8 * (IZR j / IZR k))) by (field; lra).
  rewrite Rmult_1_l.
  assert (IZR (2 ^ 104) * 8000008 < F) as N.
  { rewrite <- mult_IZR. apply IZR_lt. reflexivity. }
  nra.
Qed.

Lemma buy_sell_no_profit S B w d r v :
  (0 <= d)%Z -> (B < 2 ^ 104)%Z ->
  calculate_purchase_return S B w d = Ok r ->
  calculate_sale_return (S + r) (B + d) w r = Ok v -> (v <= d)%Z.
Proof.
  intros Hd HBs Ep Es.
  destruct (purchase_domain S B w d r Hd Ep) as (HS & HB & Hw & Hc).
  destruct (purchase_valid S B w d HS HB Hw Hd Hc) as (r' & Ep' & Hr & _ & P1 & P2).
  rewrite Ep in Ep'. apply Ok_inj in Ep'. subst r'.
  destruct (sale_domain _ _ _ _ _ Hr Es) as (_ & _ & _ & _ & Hc2).
  destruct (sale_valid (S + r) (B + d) w r ltac:(lia) ltac:(lia) Hw ltac:(lia) Hc2)
    as (v' & Es' & Hv & HvB & Q0 & Q1 & Q2).
  rewrite Es in Es'. apply Ok_inj in Es'. subst v'.
  destruct (Z.eq_dec r 0) as [R0|R0]; [rewrite (Q0 R0); exact Hd|].
  destruct (Z.eq_dec w 1000000) as [W|W].
  { specialize (P1 W). specialize (Q1 W). rewrite Q1.
    assert (r * B <= S * d)%Z by (rewrite P1; rewrite Z.mul_comm; apply Z.mul_div_le; lia).
    apply Z.lt_succ_r. apply Z.div_lt_upper_bound; [lia|]. nia. }
  assert (0 < d)%Z as Hd0.
  { destruct (Z.eq_dec d 0); [|lia]. subst d. exfalso.
    apply R0. unfold calculate_purchase_return, rrequire in Ep.
    destruct (_ && _)%bool in Ep; [|discriminate]. cbn in Ep. apply Ok_inj in Ep. lia. }
  destruct (P2 Hd0 ltac:(lia)) as (rs & p & Epow & Hp & Hrs & Er).
  destruct (Q2 ltac:(lia) ltac:(lia)) as (rs2 & p2 & Epow2 & Hp2 & Hrs2 & Ev).
  replace (S + r - r)%Z with S in Epow2 by lia.
  pose proof F_pos as HF.
  assert (0 < IZR S) as HS' by (apply IZR_lt; lia).
  assert (0 < IZR B) as HB' by (apply IZR_lt; lia).
  assert (0 < IZR w) as Hw' by (apply IZR_lt; lia).
  assert (0 < IZR (B + d)) as HBd by (apply IZR_lt; lia).
  assert (0 < IZR (S + r)) as HSr by (apply IZR_lt; lia).
  pose proof (IZR_pow2_pos p ltac:(lia)) as Hpp.
  apply power_upper in Epow; [|lia|lia|lia].
  apply power_upper in Epow2; [|lia|lia|lia].
  assert (ln (IZR (S + r) / IZR S) <= IZR w / 1000000 * (ln (IZR (d + B) / IZR B) + 8 / F)) as K.
  { rewrite <- (ln_exp (IZR w / 1000000 * _)). apply ln_le_compat; [apply Rdiv_lt_0_compat; lra|].
    eapply Rle_trans; [|exact Epow].
    replace (S + r)%Z with (S * rs / 2 ^ p)%Z by lia.
    pose proof (IZR_div_le (S * rs) (2 ^ p) ltac:(apply Z.pow_pos_nonneg; lia)) as Q. rewrite mult_IZR in Q.
    apply Rmult_le_reg_r with (IZR S); [lra|].
    replace (IZR (S * rs / 2 ^ p) / IZR S * IZR S) with (IZR (S * rs / 2 ^ p)) by (field; lra).
    eapply Rle_trans; [exact Q|]. right. field. lra. }
  set (eps := 8 / F + IZR 1000000 / IZR w * (8 / F)).
  assert (0 <= eps) as Heps.
  { unfold eps. assert (0 < 8 / F) by (apply Rdiv_lt_0_compat; lra).
    assert (0 < IZR 1000000 / IZR w) by (apply Rdiv_lt_0_compat; lra). nra. }
  apply (no_profit_arith B d v eps HB Hd Heps).
  { apply eps_small; lia. }
  rewrite Ev. apply reduce_upper; [lia|lia|exact Hrs2|].
  eapply Rle_trans; [exact Epow2|].
  replace (IZR (B + d) / IZR B * exp eps) with (exp (ln (IZR (d + B) / IZR B) + eps)).
  2:{ rewrite exp_plus, exp_ln; [|apply Rdiv_lt_0_compat; [rewrite (Z.add_comm d B)|]; lra]. rewrite (Z.add_comm d B). reflexivity. }
  apply exp_le_compat. unfold eps. rewrite Rmult_plus_distr_l.
  assert (IZR 1000000 / IZR w * ln (IZR (S + r) / IZR S) <= ln (IZR (d + B) / IZR B) + 8 / F) as K2; [|lra].
  apply Rmult_le_compat_l with (r := IZR 1000000 / IZR w) in K.
  - eapply Rle_trans; [exact K|]. right. field. split; lra.
  - left. apply Rdiv_lt_0_compat; lra.
Qed.

Lemma cross_round_trip_no_profit B1 w1 B2 w2 a r v :
  (0 <= a)%Z -> (B1 < 2 ^ 104)%Z ->
  calculate_cross_connector_return B1 w1 B2 w2 a = Ok r ->
  calculate_cross_connector_return (B2 - r) w2 (B1 + a) w1 r = Ok v -> (v <= a)%Z.
Proof.
  intros Ha HBs E1 E2.
  destruct (cross_domain _ _ _ _ _ _ Ha E1) as (HB1 & HB2 & Hw1 & Hw2 & Hc).
  destruct (cross_valid B1 w1 B2 w2 a HB1 HB2 Hw1 Hw2 Ha Hc) as (r' & E1' & Hr & P1 & P2).
  rewrite E1 in E1'. apply Ok_inj in E1'. subst r'.
  destruct (cross_domain _ _ _ _ _ _ (proj1 Hr) E2) as (_ & _ & _ & _ & Hc2).
  destruct (cross_valid (B2 - r) w2 (B1 + a) w1 r ltac:(lia) ltac:(lia) Hw2 Hw1 ltac:(lia) Hc2)
    as (v' & E2' & Hv & Q1 & Q2).
  rewrite E2 in E2'. apply Ok_inj in E2'. subst v'.
  destruct (Z.eq_dec w1 w2) as [W|W].
  { specialize (P1 W). specialize (Q1 (eq_sym W)). replace (B2 - r + r)%Z with B2 in Q1 by lia. rewrite Q1.
    assert (r * (B1 + a) <= B2 * a)%Z by (rewrite P1; rewrite Z.mul_comm; apply Z.mul_div_le; lia).
    apply Z.lt_succ_r. apply Z.div_lt_upper_bound; [lia|]. nia. }
  destruct (P2 W) as (rs & p & Epow & Hp & Hrs & Er).
  destruct (Q2 (fun e => W (eq_sym e))) as (rs2 & p2 & Epow2 & Hp2 & Hrs2 & Ev).
  replace (B2 - r + r)%Z with B2 in Epow2 by lia.
  pose proof F_pos as HF.
  assert (0 < IZR B2) as HB2' by (apply IZR_lt; lia).
  assert (0 < IZR (B2 - r)) as HB2r by (apply IZR_lt; lia).
  assert (0 < IZR B1) as HB' by (apply IZR_lt; lia).
  assert (0 < IZR w1) as Hw1' by (apply IZR_lt; lia).
  assert (0 < IZR w2) as Hw2' by (apply IZR_lt; lia).
  assert (0 < IZR (B1 + a)) as HBd by (apply IZR_lt; lia).
  pose proof (IZR_pow2_pos p ltac:(lia)) as Hpp.
  assert (0 < 2 ^ p)%Z by (apply Z.pow_pos_nonneg; lia).
  assert (0 < IZR rs) as Hrs' by (apply IZR_lt; lia).
  apply power_upper in Epow; [|lia|lia|lia].
  apply power_upper in Epow2; [|lia|lia|lia].
  assert (ln (IZR B2 / IZR (B2 - r)) <= IZR w1 / IZR w2 * (ln (IZR (B1 + a) / IZR B1) + 8 / F)) as K.
  { rewrite <- (ln_exp (IZR w1 / IZR w2 * _)). apply ln_le_compat; [apply Rdiv_lt_0_compat; lra|].
    eapply Rle_trans; [|exact Epow].
    (* B2 2^p <= (B2 - r) rs *)
    assert (B2 * 2 ^ p <= (B2 - r) * rs)%Z as Z1.
    { assert (rs * r <= B2 * rs - B2 * 2 ^ p)%Z by (rewrite Er; apply Z.mul_div_le; lia). nia. }
    apply IZR_le in Z1. rewrite !mult_IZR in Z1.
    apply Rmult_le_reg_r with (IZR (B2 - r) * IZR (2 ^ p)); [nra|].
    replace (IZR B2 / IZR (B2 - r) * (IZR (B2 - r) * IZR (2 ^ p))) with (IZR B2 * IZR (2 ^ p)) by (field; lra).
    replace (IZR rs / IZR (2 ^ p) * (IZR (B2 - r) * IZR (2 ^ p))) with (IZR (B2 - r) * IZR rs) by (field; lra).
    exact Z1. }
  set (eps := 8 / F + IZR w2 / IZR w1 * (8 / F)).
  assert (0 <= eps) as Heps.
  { unfold eps. assert (0 < 8 / F) by (apply Rdiv_lt_0_compat; lra).
    assert (0 < IZR w2 / IZR w1) by (apply Rdiv_lt_0_compat; lra). nra. }
  apply (no_profit_arith B1 a v eps HB1 Ha Heps).
  { apply eps_small; lia. }
  rewrite Ev. apply reduce_upper; [lia|lia|exact Hrs2|].
  eapply Rle_trans; [exact Epow2|].
  replace (IZR (B1 + a) / IZR B1 * exp eps) with (exp (ln (IZR (B1 + a) / IZR B1) + eps)).
  2:{ rewrite exp_plus, exp_ln; [reflexivity|apply Rdiv_lt_0_compat; lra]. }
  apply exp_le_compat. unfold eps. rewrite Rmult_plus_distr_l.
  assert (IZR w2 / IZR w1 * ln (IZR B2 / IZR (B2 - r)) <= ln (IZR (B1 + a) / IZR B1) + 8 / F) as K2; [|lra].
  apply Rmult_le_compat_l with (r := IZR w2 / IZR w1) in K.
  - eapply Rle_trans; [exact K|]. right. field. split; lra.
  - left. apply Rdiv_lt_0_compat; lra.
Qed.

(* ---------- documented formulas ---------- *)
Lemma purchase_upper S B w d r : (0 <= d)%Z -> calculate_purchase_return S B w d = Ok r ->
  IZR S + IZR r <= IZR S * Rpower (1 + IZR d / IZR B) (IZR w / 1000000) * exp (8 / 2 ^ 127).
Proof.
  intros Hd E. destruct (purchase_domain S B w d r Hd E) as (HS & HB & Hw & Hc).
  destruct (purchase_valid S B w d HS HB Hw Hd Hc) as (r' & E' & Hr & P0 & P1 & P2).
  rewrite E in E'. apply Ok_inj in E'. subst r'.
  pose proof F_pos as HF.
  assert (0 < IZR S) as HS' by (apply IZR_lt; lia).
  assert (0 < IZR B) as HB' by (apply IZR_lt; lia).
  assert (0 <= IZR d) as Hd' by (apply IZR_le; lia).
  assert (1 <= IZR w <= 1000000) as Hw' by (split; apply IZR_le; lia).
  assert (0 <= IZR d / IZR B) as Hdb by (apply Rmult_le_pos; [lra|left; apply Rinv_0_lt_compat; lra]).
  rewrite <- F_pow.
  assert (0 < 8 / F) as HeF by (apply Rdiv_lt_0_compat; lra).
  assert (1 <= exp (8 / F)) as Hexp by (pose proof (exp_ge_1x (8 / F)); lra).
  assert (1 <= Rpower (1 + IZR d / IZR B) (IZR w / 1000000)) as HRp.
  { unfold Rpower. rewrite <- exp_0 at 1. apply exp_le_compat. apply Rmult_le_pos; [lra|].
    rewrite <- ln_1. apply ln_le_compat; lra. }
  destruct (Z.eq_dec d 0) as [D0|D0].
  { rewrite (P0 D0). assert (1 <= Rpower (1 + IZR d / IZR B) (IZR w / 1000000) * exp (8 / F)) by nra.
    rewrite Rmult_assoc. nra. }
  destruct (Z.eq_dec w 1000000) as [W|W].
  { rewrite (P1 W). rewrite W. replace (1000000 / 1000000) with 1 by field. rewrite Rpower_1 by lra.
    pose proof (IZR_div_le (S * d) B HB) as Q. rewrite mult_IZR in Q.
    apply Rle_trans with (IZR S * (1 + IZR d / IZR B)); [unfold Rdiv in *; lra|].
    assert (0 < IZR S * (1 + IZR d / IZR B)) by nra. nra. }
  destruct (P2 ltac:(lia) ltac:(lia)) as (rs & p & Epow & Hp & Hrs & Er).
  apply power_Rpower in Epow; [|lia|lia|lia].
  pose proof (IZR_pow2_pos p ltac:(lia)) as Hpp.
  rewrite <- plus_IZR. replace (S + r)%Z with (S * rs / 2 ^ p)%Z by lia.
  eapply Rle_trans; [apply IZR_div_le; apply Z.pow_pos_nonneg; lia|]. rewrite mult_IZR.
  replace (IZR S * IZR rs / IZR (2 ^ p)) with (IZR S * (IZR rs / IZR (2 ^ p))) by (field; lra).
  rewrite Rmult_assoc. apply Rmult_le_compat_l; [lra|].
  eapply Rle_trans; [exact Epow|].
  replace (IZR (d + B) / IZR B) with (1 + IZR d / IZR B) by (rewrite plus_IZR; field; lra).
  apply Rmult_le_compat_l; [lra|]. apply exp_le_compat.
  assert (IZR w / 1000000 <= 1) by lra.
  assert (0 <= IZR w / 1000000) by lra. nra.
Qed.

Lemma reduce_documented B r p x y k : (0 < B)%Z -> (0 <= p)%Z -> (2 ^ p <= r)%Z ->
  1 <= x -> 0 <= y -> 0 <= k -> k <= / 2 ^ 104 ->
  IZR r / IZR (2 ^ p) <= Rpower x y * exp k ->
  IZR ((B * r - B * 2 ^ p) / r) <= IZR B * (1 - Rpower (/ x) y) + IZR B / 2 ^ 104.
Proof.
  intros HB Hp Hr Hx Hy Hk Hk2 HT.
  assert (0 < IZR B) by (apply IZR_lt; lia).
  eapply Rle_trans; [apply reduce_upper; eassumption|].
  assert (Rpower (/ x) y = / Rpower x y) as E.
  { unfold Rpower. rewrite ln_Rinv by lra. rewrite Ropp_mult_distr_r_reverse, exp_Ropp. reflexivity. }
  rewrite E.
  assert (1 <= Rpower x y) as H1.
  { unfold Rpower. rewrite <- exp_0 at 1. apply exp_le_compat. apply Rmult_le_pos; [lra|].
    rewrite <- ln_1. apply ln_le_compat; lra. }
  pose proof (exp_pos k) as H2.
  replace (IZR B / (Rpower x y * exp k)) with (IZR B * (/ Rpower x y * exp (- k))) by (rewrite exp_Ropp; field; lra).
  pose proof (exp_ge_1x (- k)) as H3.
  assert (0 < / Rpower x y <= 1) as H4.
  { split; [apply Rinv_0_lt_compat; lra|]. rewrite <- Rinv_1. apply Rinv_le_contravar; lra. }
  assert (/ Rpower x y - / 2 ^ 104 <= / Rpower x y * exp (- k)) as H5.
  { assert (0 <= / 2 ^ 104) by (left; apply Rinv_0_lt_compat; apply pow_lt; lra). nra. }
  unfold Rdiv. nra.
Qed.

Lemma k_small j k : (1 <= j <= 1000000)%Z -> (1 <= k <= 1000000)%Z ->
  0 <= IZR j / IZR k * (8 / F) <= / 2 ^ 104.
Proof.
  intros Hj Hk. pose proof F_pos as HF.
  assert (1 <= IZR k) by (apply IZR_le; lia).
  assert (0 < IZR j <= 1000000) by (split; [apply IZR_lt|apply IZR_le]; lia).
  assert (0 < IZR j / IZR k) by (apply Rdiv_lt_0_compat; lra).
  assert (IZR j / IZR k <= 1000000) as Q.
  { apply Rmult_le_reg_r with (IZR k); [lra|]. unfold Rdiv. rewrite Rmult_assoc, Rinv_l, Rmult_1_r by lra. nra. }
  assert (0 < 8 / F) by (apply Rdiv_lt_0_compat; lra).
  split; [nra|].
  assert (1000000 * (8 / F) <= / 2 ^ 104) as N.
  { rewrite F_pow. change 127%nat with (104 + 23)%nat. rewrite pow_add.
    assert (0 < 2 ^ 104) by (apply pow_lt; lra).
    replace (2 ^ 23) with 8388608 by lra. set (P := 2 ^ 104) in *.
    apply Rmult_le_reg_r with (P * 8388608); [lra|].
    replace (1000000 * (8 / (P * 8388608)) * (P * 8388608)) with 8000000 by (field; lra).
    replace (/ P * (P * 8388608)) with 8388608 by (field; lra). lra. }
  nra.
Qed.

Lemma sale_upper S B w s r : (0 <= s < S)%Z -> calculate_sale_return S B w s = Ok r ->
  IZR r <= IZR B * (1 - Rpower (1 - IZR s / IZR S) (1000000 / IZR w)) + IZR B / 2 ^ 104.
Proof.
  intros Hs E. destruct (sale_domain S B w s r (proj1 Hs) E) as (HS & HB & Hw & _ & Hc).
  destruct (sale_valid S B w s HS HB Hw ltac:(lia) Hc) as (r' & E' & Hr & _ & P0 & P1 & P2).
  rewrite E in E'. apply Ok_inj in E'. subst r'.
  assert (0 < IZR S) as HS' by (apply IZR_lt; lia).
  assert (0 < IZR B) as HB' by (apply IZR_lt; lia).
  assert (0 <= IZR s < IZR S) as Hs' by (split; [apply IZR_le|apply IZR_lt]; lia).
  assert (0 < IZR w) as Hw' by (apply IZR_lt; lia).
  assert (0 < / 2 ^ 104) as H104 by (apply Rinv_0_lt_compat; apply pow_lt; lra).
  assert (0 <= IZR s / IZR S < 1) as Hss.
  { split; [apply Rmult_le_pos; [lra|left; apply Rinv_0_lt_compat; lra]|].
    apply Rmult_lt_reg_r with (IZR S); [lra|]. unfold Rdiv. rewrite Rmult_assoc, Rinv_l by lra. lra. }
  destruct (Z.eq_dec s 0) as [D0|D0].
  { rewrite (P0 D0). rewrite D0. unfold Rdiv at 1. rewrite Rmult_0_l, Rminus_0_r.
    unfold Rpower. rewrite ln_1, Rmult_0_r, exp_0. unfold Rdiv. nra. }
  destruct (Z.eq_dec w 1000000) as [W|W].
  { rewrite (P1 W). rewrite W. replace (1000000 / 1000000) with 1 by field. rewrite Rpower_1 by lra.
    pose proof (IZR_div_le (B * s) S HS) as Q. rewrite mult_IZR in Q. unfold Rdiv in *. nra. }
  destruct (P2 ltac:(lia) ltac:(lia)) as (rs & p & Epow & Hp & Hrs & Er).
  apply power_Rpower in Epow; [|lia|lia|lia].
  rewrite Er.
  assert (0 < IZR (S - s)) by (apply IZR_lt; lia).
  replace (1 - IZR s / IZR S) with (/ (IZR S / IZR (S - s))).
  2:{ rewrite minus_IZR in *. field. lra. }
  pose proof (k_small 1000000 w ltac:(lia) Hw) as [K1 K2].
  apply reduce_documented with (k := IZR 1000000 / IZR w * (8 / F)); try assumption; try lia.
  - apply Rmult_le_reg_r with (IZR (S - s)); [lra|]. unfold Rdiv. rewrite Rmult_assoc, Rinv_l, Rmult_1_r, Rmult_1_l by lra.
    apply IZR_le. lia.
  - left. apply Rdiv_lt_0_compat; lra.
Qed.

Lemma cross_upper B1 w1 B2 w2 a r : (0 <= a)%Z -> calculate_cross_connector_return B1 w1 B2 w2 a = Ok r ->
  IZR r <= IZR B2 * (1 - Rpower (IZR B1 / (IZR B1 + IZR a)) (IZR w1 / IZR w2)) + IZR B2 / 2 ^ 104.
Proof.
  intros Ha E. destruct (cross_domain _ _ _ _ _ _ Ha E) as (HB1 & HB2 & Hw1 & Hw2 & Hc).
  destruct (cross_valid B1 w1 B2 w2 a HB1 HB2 Hw1 Hw2 Ha Hc) as (r' & E' & Hr & P1 & P2).
  rewrite E in E'. apply Ok_inj in E'. subst r'.
  assert (0 < IZR B1) as HS' by (apply IZR_lt; lia).
  assert (0 < IZR B2) as HB' by (apply IZR_lt; lia).
  assert (0 <= IZR a) as Ha' by (apply IZR_le; lia).
  assert (0 < IZR w1) as Hw1' by (apply IZR_lt; lia).
  assert (0 < IZR w2) as Hw2' by (apply IZR_lt; lia).
  assert (0 < / 2 ^ 104) as H104 by (apply Rinv_0_lt_compat; apply pow_lt; lra).
  destruct (Z.eq_dec w1 w2) as [W|W].
  { rewrite (P1 W). rewrite W. replace (IZR w2 / IZR w2) with 1 by (field; lra).
    rewrite Rpower_1 by (apply Rdiv_lt_0_compat; lra).
    pose proof (IZR_div_le (B2 * a) (B1 + a) ltac:(lia)) as Q. rewrite mult_IZR, plus_IZR in Q.
    replace (IZR B2 * (1 - IZR B1 / (IZR B1 + IZR a))) with (IZR B2 * IZR a / (IZR B1 + IZR a)) by (field; lra).
    unfold Rdiv in *. nra. }
  destruct (P2 W) as (rs & p & Epow & Hp & Hrs & Er).
  apply power_Rpower in Epow; [|lia|lia|lia].
  rewrite Er.
  replace (IZR B1 / (IZR B1 + IZR a)) with (/ (IZR (B1 + a) / IZR B1)).
  2:{ rewrite plus_IZR in *. field. lra. }
  pose proof (k_small w1 w2 Hw1 Hw2) as [K1 K2].
  apply reduce_documented with (k := IZR w1 / IZR w2 * (8 / F)); try assumption; try lia.
  - apply Rmult_le_reg_r with (IZR B1); [lra|]. unfold Rdiv. rewrite Rmult_assoc, Rinv_l, Rmult_1_r, Rmult_1_l by lra.
    apply IZR_le. lia.
  - left. apply Rdiv_lt_0_compat; lra.
Qed.
