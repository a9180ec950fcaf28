(* Quotes are close to the documented real formulas from below; consequences. *)
From Coq Require Import ZArith List Lia Bool Reals Lra String.
From Verif Require Import Res FormulaConsts FormulaModel FormulaInt FormulaQuotes RealTools FormulaReal FormulaLower FormulaTrade.
Import ListNotations.
Local Open Scope R_scope.

Lemma Rpower_ge1 x y : 1 <= x -> 0 <= y -> 1 <= Rpower x y.
Proof.
  intros Hx Hy. unfold Rpower. rewrite <- exp_0 at 1. apply exp_le_compat. apply Rmult_le_pos; [lra|].
  rewrite <- ln_1. apply ln_le_compat; lra.
Qed.
Lemma Rpower_inv_base x y : 0 < x -> Rpower (/ x) y = / Rpower x y.
Proof. intros Hx. unfold Rpower. rewrite ln_Rinv by lra. rewrite Ropp_mult_distr_r_reverse, exp_Ropp. reflexivity. Qed.

(* k = 114 if en <= ed, k = 101 if en <= 10^6 ed *)
Lemma power_accurate_gen (m : Z) (k : nat) bn bd en ed r p : (0 < bd <= bn)%Z -> (0 <= en)%Z -> (0 < ed)%Z ->
  (en <= m * ed)%Z -> (1 <= m <= 1000000)%Z -> (42 * IZR m + 513) / F + / 2 ^ 115 <= / 2 ^ k ->
  power bn bd en ed = Ok (r, p) ->
  Rpower (IZR bn / IZR bd) (IZR en / IZR ed) * (1 - / 2 ^ k) <= IZR r / IZR (2 ^ p) \/
  8000000 <= IZR r / IZR (2 ^ p) /\ 8000000 < Rpower (IZR bn / IZR bd) (IZR en / IZR ed).
Proof.
  intros Hb He Hd Hm Hm1 Hk E. pose proof F_pos as HF.
  assert (0 < IZR ed) as Hed by (apply IZR_lt; lia).
  assert (0 <= IZR en) as Hen by (apply IZR_le; lia).
  assert (0 <= IZR en / IZR ed <= IZR m) as He0.
  { split; [apply Rmult_le_pos; [lra|]; left; apply Rinv_0_lt_compat; exact Hed|].
    apply Rmult_le_reg_r with (IZR ed); [lra|]. replace (IZR en / IZR ed * IZR ed) with (IZR en) by (field; lra).
    rewrite <- mult_IZR. apply IZR_le. exact Hm. }
  assert (IZR m <= 1000000) as Hm2 by (apply IZR_le; lia).
  destruct (Rlt_or_le (IZR en / IZR ed * (ln (IZR bn / IZR bd) + 8 / F)) 16) as [L|L].
  - left. destruct (power_lower _ _ _ _ _ _ Hb He Hd E L) as [-> Q]. rewrite <- FIXED_1_pow.
    eapply Rle_trans; [|exact Q]. unfold Rpower. apply Rmult_le_compat_l; [left; apply exp_pos|].
    assert ((42 * (IZR en / IZR ed) + 513) / F <= (42 * IZR m + 513) / F) as M.
    { unfold Rdiv. apply Rmult_le_compat_r; [left; apply Rinv_0_lt_compat; exact HF|]. fold (Rdiv (IZR en) (IZR ed)). lra. }
    lra.
  - right. split; [eapply power_large; try eassumption; nia|].
    pose proof exp_15_9 as X. unfold Rpower. apply Rlt_le_trans with (exp (159 / 10)); [lra|]. apply exp_le_compat.
    assert (IZR en / IZR ed * (8 / F) <= 1 / 10) as S.
    { apply Rle_trans with (1000000 * (8 / F)); [apply Rmult_le_compat_r; [|lra]; apply Rmult_le_pos; [lra|left; apply Rinv_0_lt_compat; lra]|].
      apply Rmult_le_reg_r with F; [lra|]. replace (1000000 * (8 / F) * F) with 8000000 by (field; lra).
      assert (80000000 <= F) by (apply IZR_le; vm_compute; discriminate). lra. }
    lra.
Qed.

Lemma small_error (m : Z) (k : nat) : (2 ^ Z.of_nat k * ((42 * m + 513) + 2 ^ 12) <= FIXED_1)%Z -> (42 * IZR m + 513) / F + / 2 ^ 115 <= / 2 ^ k.
Proof.
  intros H. pose proof F_pos as HF.
  assert (/ 2 ^ 115 = 4096 / F) as ->.
  { rewrite F_pow. change 127%nat with (115 + 12)%nat. rewrite pow_add. replace (2 ^ 12) with 4096 by lra. field. }
  apply IZR_le in H. rewrite mult_IZR, !plus_IZR, mult_IZR, <- pow_IZR in H.
  replace (IZR (2 ^ 12)) with 4096 in H by reflexivity.
  pose proof (pow_lt 2 k ltac:(lra)) as P.
  apply Rmult_le_reg_r with (F * 2 ^ k); [nra|].
  replace (((42 * IZR m + 513) / F + 4096 / F) * (F * 2 ^ k)) with (2 ^ k * (42 * IZR m + 513 + 4096)) by (field; lra).
  replace (/ 2 ^ k * (F * 2 ^ k)) with F by (field; lra). exact H.
Qed.
Lemma error_1 : (42 * 1 + 513) / F + / 2 ^ 115 <= / 2 ^ 114.
Proof. apply (small_error 1 114). vm_compute. discriminate. Qed.
Lemma error_M : (42 * 1000000 + 513) / F + / 2 ^ 115 <= / 2 ^ 101.
Proof. apply (small_error 1000000 101). vm_compute. discriminate. Qed.

Lemma power_lower_bound bn bd en ed r p : (0 < bd <= bn)%Z -> (0 <= en)%Z -> (0 < ed)%Z -> (en <= 1000000 * ed)%Z ->
  power bn bd en ed = Ok (r, p) ->
  let x := Rpower (IZR bn / IZR bd) (IZR en / IZR ed) in
  Rmin (x * (1 - / 2 ^ (if (en <=? ed)%Z then 114 else 101))) 8000000 <= IZR r / IZR (2 ^ p).
Proof.
  intros Hb He Hd Hm E. cbv zeta. destruct (Z.leb_spec en ed) as [L|L].
  - pose proof (fun x1 x2 => power_accurate_gen 1 114 _ _ _ _ _ _ Hb He Hd x1 x2 error_1 E) as A.
    specialize (A ltac:(lia) ltac:(lia)).
    destruct A as [A|[A _]]; [eapply Rle_trans; [apply Rmin_l|exact A]|eapply Rle_trans; [apply Rmin_r|exact A]].
  - pose proof (fun x2 => power_accurate_gen 1000000 101 _ _ _ _ _ _ Hb He Hd Hm x2 error_M E) as A.
    specialize (A ltac:(lia)).
    destruct A as [A|[A _]]; [eapply Rle_trans; [apply Rmin_l|exact A]|eapply Rle_trans; [apply Rmin_r|exact A]].
Qed.

(* purchase *)
Lemma purchase_lower S B w d r : (0 <= d)%Z -> calculate_purchase_return S B w d = Ok r ->
  IZR S * Rmin (Rpower (1 + IZR d / IZR B) (IZR w / 1000000) * (1 - / 2 ^ 114)) 8000000 - IZR S - 1 <= IZR r.
Proof.
  intros Hd E. destruct (purchase_domain S B w d r Hd E) as (HS & HB & Hw & Hc).
  destruct (purchase_valid S B w d HS HB Hw Hd Hc) as (r' & E' & Hr & P0 & P1 & P2).
  rewrite E in E'. apply Ok_inj in E'. subst r'.
  assert (0 < IZR S) as HS' by (apply IZR_lt; lia).
  assert (0 < IZR B) as HB' by (apply IZR_lt; lia).
  assert (0 <= IZR d) as Hd' by (apply IZR_le; lia).
  assert (0 < / 2 ^ 114) as Hq by apply inv_pow2_pos.
  assert (0 <= IZR d / IZR B) as Hdb by (apply Rmult_le_pos; [lra|left; apply Rinv_0_lt_compat; lra]).
  assert (0 <= IZR w / 1000000) as Hw'. { apply Rmult_le_pos; [apply IZR_le; lia|lra]. }
  pose proof (Rpower_ge1 (1 + IZR d / IZR B) (IZR w / 1000000) ltac:(lra) Hw') as G1.
  assert (forall t, Rpower (1 + IZR d / IZR B) (IZR w / 1000000) <= t -> IZR S * t - IZR S - 1 <= IZR r ->
    IZR S * Rmin (Rpower (1 + IZR d / IZR B) (IZR w / 1000000) * (1 - / 2 ^ 114)) 8000000 - IZR S - 1 <= IZR r) as Simple.
  { intros t Ht Hrt. assert (Rmin (Rpower (1 + IZR d / IZR B) (IZR w / 1000000) * (1 - / 2 ^ 114)) 8000000 <= t); [|nra].
    eapply Rle_trans; [apply Rmin_l|]. remember (/ 2 ^ 114) as q eqn:Eq. clear Eq. nra. }
  destruct (Z.eq_dec d 0) as [D0|D0].
  { apply Simple with 1; [|rewrite (P0 D0); lra]. rewrite D0. unfold Rdiv at 1. rewrite Rmult_0_l, Rplus_0_r.
    unfold Rpower. rewrite ln_1, Rmult_0_r, exp_0. lra. }
  destruct (Z.eq_dec w 1000000) as [W|W].
  { apply Simple with (1 + IZR d / IZR B).
    - rewrite W. replace (1000000 / 1000000) with 1 by field. rewrite Rpower_1; lra.
    - rewrite (P1 W). pose proof (IZR_div_gt (S * d) B HB) as Q. rewrite mult_IZR in Q. unfold Rdiv in *. lra. }
  destruct (P2 ltac:(lia) ltac:(lia)) as (rs & p & Epow & Hp & Hrs & Er).
  pose proof (fun x1 x2 x3 x4 x5 => power_accurate_gen 1 114 _ _ _ _ _ _ x1 x2 x3 x4 x5 error_1 Epow) as A.
  specialize (A ltac:(lia) ltac:(lia) ltac:(lia) ltac:(lia) ltac:(lia)).
  pose proof (IZR_pow2_pos p (proj1 Hp)) as P2p.
  assert (IZR S * (IZR rs / IZR (2 ^ p)) - IZR S - 1 <= IZR r) as L.
  { rewrite Er, minus_IZR. pose proof (IZR_div_gt (S * rs) (2 ^ p) ltac:(apply Z.pow_pos_nonneg; lia)) as Q. rewrite mult_IZR in Q.
    unfold Rdiv in *. lra. }
  eapply Rle_trans; [|exact L]. unfold Rminus. apply Rplus_le_compat_r, Rplus_le_compat_r, Rmult_le_compat_l; [lra|].
  replace (IZR (d + B) / IZR B) with (1 + IZR d / IZR B) in A by (rewrite plus_IZR; field; lra).
  destruct A as [A|[A _]]; [eapply Rle_trans; [apply Rmin_l|exact A]|eapply Rle_trans; [apply Rmin_r|exact A]].
Qed.

Lemma reduce_lower B r p T : (0 < B)%Z -> (0 <= p)%Z -> (2 ^ p <= r)%Z -> 0 < T -> T <= IZR r / IZR (2 ^ p) ->
  IZR B * (1 - / T) - 1 <= IZR ((B * r - B * 2 ^ p) / r).
Proof.
  intros HB Hp Hr HT0 HT.
  assert (0 < IZR B) by (apply IZR_lt; lia).
  pose proof (IZR_pow2_pos p Hp) as P2.
  assert (0 < 2 ^ p)%Z by (apply Z.pow_pos_nonneg; lia).
  assert (0 < IZR r) as Hr' by (apply IZR_lt; lia).
  left. eapply Rle_lt_trans; [|apply IZR_div_gt; lia].
  rewrite minus_IZR, !mult_IZR.
  replace ((IZR B * IZR r - IZR B * IZR (2 ^ p)) / IZR r) with (IZR B * (1 - / (IZR r / IZR (2 ^ p)))) by (field; lra).
  assert (/ (IZR r / IZR (2 ^ p)) <= / T) as K by (apply Rinv_le_contravar; assumption).
  apply Rplus_le_compat_r, Rmult_le_compat_l; lra.
Qed.

(* 1 - 1/T for the two cases of power_accurate_gen *)
Lemma reduce_accurate B r p x y : (0 < B)%Z -> (0 <= p)%Z -> (2 ^ p <= r)%Z -> 1 <= x -> 0 <= y ->
  Rpower x y * (1 - / 2 ^ 101) <= IZR r / IZR (2 ^ p) \/ 8000000 <= IZR r / IZR (2 ^ p) /\ 8000000 < Rpower x y ->
  IZR B * (1 - Rmax (Rpower (/ x) y * (1 + / 2 ^ 100)) (/ 8000000)) - 1 <= IZR ((B * r - B * 2 ^ p) / r).
Proof.
  intros HB Hp Hr Hx Hy A. rewrite Rpower_inv_base by lra. pose proof (Rpower_ge1 x y Hx Hy) as G1.
  assert (0 < IZR B) as HB' by (apply IZR_lt; lia).
  destruct A as [A|[A _]].
  - assert (0 < / 2 ^ 101 <= / 2) as Hq.
    { split; [apply inv_pow2_pos|]. apply Rinv_le_contravar; [lra|]. rewrite <- (pow_1 2) at 1. apply Rle_pow; [lra|lia]. }
    assert (/ 2 ^ 100 = 2 * / 2 ^ 101) as E2 by (rewrite (inv_pow2_shift 100 1); simpl (2 ^ 1); change (100 + 1)%nat with 101%nat; lra).
    rewrite E2. remember (/ 2 ^ 101) as q eqn:Eq. clear Eq E2.
    eapply Rle_trans; [|apply (reduce_lower B r p (Rpower x y * (1 - q))); try assumption; nra].
    apply Rplus_le_compat_r, Rmult_le_compat_l; [lra|]. unfold Rminus. apply Rplus_le_compat_l, Ropp_le_contravar.
    eapply Rle_trans; [|apply Rmax_l]. rewrite Rinv_mult. apply Rmult_le_compat_l; [left; apply Rinv_0_lt_compat; lra|].
    apply Rmult_le_reg_r with (1 - q); [lra|]. rewrite Rinv_l by lra. nra.
  - eapply Rle_trans; [|apply (reduce_lower B r p 8000000); try assumption; lra].
    apply Rplus_le_compat_r, Rmult_le_compat_l; [lra|]. unfold Rminus. apply Rplus_le_compat_l, Ropp_le_contravar. apply Rmax_r.
Qed.

Lemma rmax_trivial B P v : 0 < B -> 0 <= P -> B * (1 - P) - 1 <= v ->
  B * (1 - Rmax (P * (1 + / 2 ^ 100)) (/ 8000000)) - 1 <= v.
Proof.
  intros HB HP H. eapply Rle_trans; [|exact H]. apply Rplus_le_compat_r, Rmult_le_compat_l; [lra|].
  unfold Rminus. apply Rplus_le_compat_l, Ropp_le_contravar. eapply Rle_trans; [|apply Rmax_l].
  pose proof (inv_pow2_pos 100). remember (/ 2 ^ 100) as q eqn:Eq. clear Eq. nra.
Qed.

Lemma sale_lower S B w s r : (0 <= s < S)%Z -> calculate_sale_return S B w s = Ok r ->
  IZR B * (1 - Rmax (Rpower (1 - IZR s / IZR S) (1000000 / IZR w) * (1 + / 2 ^ 100)) (/ 8000000)) - 1 <= IZR r.
Proof.
  intros Hs E. destruct (sale_domain S B w s r (proj1 Hs) E) as (HS & HB & Hw & _ & Hc).
  destruct (sale_valid S B w s HS HB Hw ltac:(lia) Hc) as (r' & E' & Hr & _ & P0 & P1 & P2).
  rewrite E in E'. apply Ok_inj in E'. subst r'.
  assert (0 < IZR S) as HS' by (apply IZR_lt; lia).
  assert (0 < IZR B) as HB' by (apply IZR_lt; lia).
  assert (0 <= IZR s < IZR S) as Hs' by (split; [apply IZR_le|apply IZR_lt]; lia).
  assert (0 < IZR w) as Hw' by (apply IZR_lt; lia).
  assert (0 <= IZR s / IZR S < 1) as Hss.
  { split; [apply Rmult_le_pos; [lra|left; apply Rinv_0_lt_compat; lra]|].
    apply Rmult_lt_reg_r with (IZR S); [lra|]. unfold Rdiv. rewrite Rmult_assoc, Rinv_l by lra. lra. }
  destruct (Z.eq_dec s 0) as [D0|D0].
  { apply rmax_trivial; [lra|left; apply exp_pos|]. rewrite (P0 D0), D0. unfold Rdiv at 1. rewrite Rmult_0_l, Rminus_0_r.
    unfold Rpower. rewrite ln_1, Rmult_0_r, exp_0. lra. }
  destruct (Z.eq_dec w 1000000) as [W|W].
  { apply rmax_trivial; [lra|left; apply exp_pos|]. rewrite (P1 W), W. replace (1000000 / 1000000) with 1 by field. rewrite Rpower_1 by lra.
    pose proof (IZR_div_gt (B * s) S HS) as Q. rewrite mult_IZR in Q. unfold Rdiv in *. lra. }
  destruct (P2 ltac:(lia) ltac:(lia)) as (rs & p & Epow & Hp & Hrs & Er).
  pose proof (fun x1 x2 x3 x4 x5 => power_accurate_gen 1000000 101 _ _ _ _ _ _ x1 x2 x3 x4 x5 error_M Epow) as A.
  specialize (A ltac:(lia) ltac:(lia) ltac:(lia) ltac:(lia) ltac:(lia)).
  rewrite Er.
  assert (0 < IZR (S - s)) by (apply IZR_lt; lia).
  replace (1 - IZR s / IZR S) with (/ (IZR S / IZR (S - s))) by (rewrite minus_IZR in *; field; lra).
  apply reduce_accurate; try lia; [| |exact A].
  - apply Rmult_le_reg_r with (IZR (S - s)); [lra|]. unfold Rdiv. rewrite Rmult_assoc, Rinv_l, Rmult_1_r, Rmult_1_l by lra.
    apply IZR_le. lia.
  - left. apply Rdiv_lt_0_compat; lra.
Qed.

Lemma cross_lower B1 w1 B2 w2 a r : (0 <= a)%Z -> calculate_cross_connector_return B1 w1 B2 w2 a = Ok r ->
  IZR B2 * (1 - Rmax (Rpower (IZR B1 / (IZR B1 + IZR a)) (IZR w1 / IZR w2) * (1 + / 2 ^ 100)) (/ 8000000)) - 1 <= IZR r.
Proof.
  intros Ha E. destruct (cross_domain _ _ _ _ _ _ Ha E) as (HB1 & HB2 & Hw1 & Hw2 & Hc).
  destruct (cross_valid B1 w1 B2 w2 a HB1 HB2 Hw1 Hw2 Ha Hc) as (r' & E' & Hr & P1 & P2).
  rewrite E in E'. apply Ok_inj in E'. subst r'.
  assert (0 < IZR B1) as HS' by (apply IZR_lt; lia).
  assert (0 < IZR B2) as HB' by (apply IZR_lt; lia).
  assert (0 <= IZR a) as Ha' by (apply IZR_le; lia).
  assert (0 < IZR w1) as Hw1' by (apply IZR_lt; lia).
  assert (0 < IZR w2) as Hw2' by (apply IZR_lt; lia).
  destruct (Z.eq_dec w1 w2) as [W|W].
  { apply rmax_trivial; [lra|left; apply exp_pos|]. rewrite (P1 W), W. replace (IZR w2 / IZR w2) with 1 by (field; lra).
    rewrite Rpower_1 by (apply Rdiv_lt_0_compat; lra).
    pose proof (IZR_div_gt (B2 * a) (B1 + a) ltac:(lia)) as Q. rewrite mult_IZR, plus_IZR in Q.
    replace (IZR B2 * (1 - IZR B1 / (IZR B1 + IZR a))) with (IZR B2 * IZR a / (IZR B1 + IZR a)) by (field; lra). lra. }
  destruct (P2 W) as (rs & p & Epow & Hp & Hrs & Er).
  pose proof (fun x1 x2 x3 x4 x5 => power_accurate_gen 1000000 101 _ _ _ _ _ _ x1 x2 x3 x4 x5 error_M Epow) as A.
  specialize (A ltac:(lia) ltac:(lia) ltac:(lia) ltac:(lia) ltac:(lia)).
  rewrite Er.
  assert (0 < IZR (B1 + a)) by (apply IZR_lt; lia).
  replace (IZR B1 / (IZR B1 + IZR a)) with (/ (IZR (B1 + a) / IZR B1)) by (rewrite plus_IZR in *; field; lra).
  apply reduce_accurate; try lia; [| |exact A].
  - apply Rmult_le_reg_r with (IZR B1); [lra|]. unfold Rdiv. rewrite Rmult_assoc, Rinv_l, Rmult_1_r, Rmult_1_l by lra.
    apply IZR_le. lia.
  - left. apply Rdiv_lt_0_compat; lra.
Qed.

(* ---------- monotone up to one unit ---------- *)
Lemma Rpower_mono_base x y e : 0 < x <= y -> 0 <= e -> Rpower x e <= Rpower y e.
Proof.
  intros H He. unfold Rpower. apply exp_le_compat. apply Rmult_le_compat_l; [exact He|]. apply ln_le_compat; lra.
Qed.

Lemma within_one r1 r2 : IZR r1 < IZR r2 + 2 -> (r1 <= r2 + 1)%Z.
Proof. intros H. assert (r1 < r2 + 2)%Z; [|lia]. apply lt_IZR. rewrite plus_IZR. exact H. Qed.

(* in the ratio of deposit and balance *)
Lemma purchase_near_monotone_ratio S B1 B w d1 d2 r1 r2 : (0 <= d1)%Z -> (0 <= d2)%Z -> (d1 * B <= d2 * B1)%Z -> (B + d2 <= 8000000 * B)%Z -> (S + r1 < 2 ^ 113)%Z ->
  calculate_purchase_return S B1 w d1 = Ok r1 -> calculate_purchase_return S B w d2 = Ok r2 -> (r1 <= r2 + 1)%Z.
Proof.
  intros Hd1 Hd2 Hratio Hlim Hs E1 E2. destruct (purchase_domain S B1 w d1 r1 ltac:(lia) E1) as (HS & HB1 & Hw & Hc).
  destruct (purchase_domain S B w d2 r2 ltac:(lia) E2) as (_ & HB & _ & _).
  pose proof (purchase_upper _ _ _ _ _ Hd1 E1) as U. pose proof (purchase_lower S B w d2 r2 ltac:(lia) E2) as L.
  assert (0 < IZR S) as HS' by (apply IZR_lt; lia).
  assert (0 < IZR B) as HB' by (apply IZR_lt; lia). assert (0 < IZR B1) as HB1' by (apply IZR_lt; lia).
  assert (0 <= IZR d1 /\ 0 <= IZR d2) as Hd' by (split; apply IZR_le; lia).
  assert (IZR d1 / IZR B1 <= IZR d2 / IZR B /\ 0 <= IZR d1 / IZR B1) as [Hdd Hd0].
  { assert (0 < / IZR B1) by (apply Rinv_0_lt_compat; lra). split; [|unfold Rdiv; apply Rmult_le_pos; lra].
    apply Rmult_le_reg_r with (IZR B1 * IZR B); [apply Rmult_lt_0_compat; lra|].
    replace (IZR d1 / IZR B1 * (IZR B1 * IZR B)) with (IZR d1 * IZR B) by (field; lra).
    replace (IZR d2 / IZR B * (IZR B1 * IZR B)) with (IZR d2 * IZR B1) by (field; lra). rewrite <- !mult_IZR. apply IZR_le. exact Hratio. }
  assert (1 + IZR d2 / IZR B <= 8000000) as Hlim'.
  { apply Rmult_le_reg_r with (IZR B); [lra|].
    replace ((1 + IZR d2 / IZR B) * IZR B) with (IZR B + IZR d2) by (field; lra). rewrite <- mult_IZR, <- plus_IZR. apply IZR_le. lia. }
  assert (0 <= IZR w / 1000000 <= 1) as Hw'. { assert (1 <= IZR w <= 1000000) by (split; apply IZR_le; lia). lra. }
  set (P1 := Rpower (1 + IZR d1 / IZR B1) (IZR w / 1000000)) in *. set (P2 := Rpower (1 + IZR d2 / IZR B) (IZR w / 1000000)) in *.
  assert (P1 <= P2) as HP by (apply Rpower_mono_base; lra).
  assert (1 <= P1) as G1 by (apply Rpower_ge1; lra).
  assert (P2 <= 8000000) as G2.
  { apply Rle_trans with (Rpower (1 + IZR d2 / IZR B) 1); [|rewrite Rpower_1; lra].
    unfold P2, Rpower. apply exp_le_compat. apply Rmult_le_compat_r; [|lra]. rewrite <- ln_1. apply ln_le_compat; lra. }
  pose proof (inv_pow2_pos 114) as Hq. rewrite Rmin_left in L by nra.
  pose proof (exp_ge_1x (- (8 / 2 ^ 127))) as X. rewrite exp_Ropp in X. pose proof (exp_pos (8 / 2 ^ 127)) as Px.
  assert (8 / 2 ^ 127 <= / 2 ^ 114) as Q8.
  { rewrite (inv_pow2_shift 114 13). change (114 + 13)%nat with 127%nat. pose proof (inv_pow2_pos 127).
    replace (2 ^ 13) with 8192 by lra. unfold Rdiv. nra. }
  assert (IZR S + IZR r1 < 2 ^ 113) as Hs'.
  { apply IZR_lt in Hs. rewrite plus_IZR in Hs. rewrite (pow_IZR 2 113). exact Hs. }
  assert (2 ^ 113 * (2 * / 2 ^ 114) = 1) as E113.
  { change 114%nat with (113 + 1)%nat. rewrite pow_add. simpl (2 ^ 1). field. }
  set (u := exp (8 / 2 ^ 127)) in *. remember (8 / 2 ^ 127) as q8 eqn:Eq8. clear Eq8.
  assert (0 <= IZR r1) as Hr1 by (destruct (purchase_valid S B1 w d1 HS HB1 Hw Hd1 Hc) as (r' & E' & Hr & _); rewrite E1 in E'; apply Ok_inj in E'; subst; apply IZR_le; exact Hr).
  remember (/ 2 ^ 114) as q eqn:Eq. clear Eq. remember (2 ^ 113) as M eqn:EM. clear EM.
  (* S P2 >= (S + r1) / u >= (S + r1) (1 - q8) *)
  assert ((IZR S + IZR r1) * (1 - q) <= IZR S * P2) as V.
  { apply Rle_trans with ((IZR S + IZR r1) * / u); [apply Rmult_le_compat_l; lra|].
    apply Rmult_le_reg_r with u; [exact Px|]. rewrite Rmult_assoc, Rinv_l, Rmult_1_r by lra.
    eapply Rle_trans; [exact U|]. apply Rmult_le_compat_r; [lra|]. apply Rmult_le_compat_l; lra. }
  apply within_one.
  assert (1 <= IZR S) as HS1 by (apply IZR_le; lia). assert (2 * q * 1 < 2 * q * M) by (apply Rmult_lt_compat_l; lra).
  assert (0 < 1 - q) as Hq1 by lra.
  assert ((IZR S + IZR r1) * (1 - q) * (1 - q) <= IZR S * P2 * (1 - q)) as V2 by (apply Rmult_le_compat_r; lra).
  assert ((IZR S + IZR r1) * (2 * q) < 1) as V3.
  { apply Rle_lt_trans with ((IZR S + IZR r1) * (2 * q)); [lra|]. rewrite <- E113. apply Rmult_lt_compat_r; lra. }
  assert (0 <= (IZR S + IZR r1) * (q * q)) by (apply Rmult_le_pos; [lra|apply Rmult_le_pos; lra]).
  lra.
Qed.
Lemma purchase_near_monotone S B w d1 d2 r1 r2 : (0 <= d1 <= d2)%Z -> (B + d2 <= 8000000 * B)%Z -> (S + r1 < 2 ^ 113)%Z ->
  calculate_purchase_return S B w d1 = Ok r1 -> calculate_purchase_return S B w d2 = Ok r2 -> (r1 <= r2 + 1)%Z.
Proof.
  intros Hd Hlim Hs E1 E2. destruct (purchase_domain S B w d1 r1 ltac:(lia) E1) as (HS & HB & _).
  eapply purchase_near_monotone_ratio with (d1 := d1) (d2 := d2); [lia|lia| |exact Hlim|exact Hs|exact E1|exact E2]. apply Z.mul_le_mono_nonneg_r; lia.
Qed.

Lemma reduce_near_monotone B P1 P2 r1 r2 : (0 < B < 2 ^ 99)%Z -> 0 < P2 -> P2 <= P1 -> P1 <= 1 -> / 8000000 <= P2 ->
  IZR r1 <= IZR B * (1 - P1) + IZR B / 2 ^ 104 ->
  IZR B * (1 - Rmax (P2 * (1 + / 2 ^ 100)) (/ 8000000)) - 1 <= IZR r2 -> (r1 <= r2 + 1)%Z.
Proof.
  intros HB HP2 HP HP1 Hlim U L. pose proof (inv_pow2_pos 100) as Hq. rewrite Rmax_left in L by (remember (/ 2 ^ 100) as q eqn:Eq; clear Eq; nra).
  assert (0 < IZR B) as HB0 by (apply IZR_lt; lia).
  assert (IZR B < 2 ^ 99) as HB'. { rewrite (pow_IZR 2 99). apply IZR_lt. apply HB. }
  assert (2 ^ 99 * (2 * / 2 ^ 100) = 1) as E99.
  { change 100%nat with (99 + 1)%nat. rewrite pow_add. simpl (2 ^ 1). field. }
  assert (/ 2 ^ 104 <= / 2 ^ 100) as Q104. { apply Rinv_le_contravar; [apply pow_lt; lra|apply Rle_pow; [lra|lia]]. }
  unfold Rdiv in U. apply within_one.
  remember (/ 2 ^ 104) as q4 eqn:E4. clear E4. remember (/ 2 ^ 100) as q eqn:Eq. clear Eq. remember (2 ^ 99) as M eqn:EM. clear EM.
  assert (IZR B * (2 * q) < 1) as V. { rewrite <- E99. apply Rmult_lt_compat_r; lra. }
  assert (IZR B * q4 <= IZR B * q) by (apply Rmult_le_compat_l; lra).
  assert (IZR B * (P2 * q) <= IZR B * q) by (apply Rmult_le_compat_l; nra).
  assert (IZR B * P2 <= IZR B * P1) by (apply Rmult_le_compat_l; lra). lra.
Qed.

Lemma sale_near_monotone S B w s1 s2 r1 r2 : (0 <= s1 <= s2)%Z -> (s2 < S)%Z -> (B < 2 ^ 99)%Z ->
  / 8000000 <= Rpower (1 - IZR s2 / IZR S) (1000000 / IZR w) ->
  calculate_sale_return S B w s1 = Ok r1 -> calculate_sale_return S B w s2 = Ok r2 -> (r1 <= r2 + 1)%Z.
Proof.
  intros Hs Hs2 HB99 Hlim E1 E2. destruct (sale_domain S B w s1 r1 ltac:(lia) E1) as (HS & HB & Hw & _ & Hc).
  pose proof (sale_upper S B w s1 r1 ltac:(lia) E1) as U. pose proof (sale_lower S B w s2 r2 ltac:(lia) E2) as L.
  assert (0 < IZR S) as HS' by (apply IZR_lt; lia). assert (0 < IZR w) as Hw' by (apply IZR_lt; lia).
  assert (0 <= IZR s1 <= IZR s2 /\ IZR s2 < IZR S) as [Hd' Hd2] by (split; [split; apply IZR_le|apply IZR_lt]; lia).
  assert (0 <= 1000000 / IZR w) as He by (left; apply Rdiv_lt_0_compat; lra).
  assert (0 < / IZR S) as Hi by (apply Rinv_0_lt_compat; lra).
  assert (0 < 1 - IZR s2 / IZR S /\ 1 - IZR s2 / IZR S <= 1 - IZR s1 / IZR S /\ 1 - IZR s1 / IZR S <= 1) as (Q1 & Q2 & Q3).
  { assert (IZR S * / IZR S = 1) by (apply Rinv_r; lra). unfold Rdiv. repeat split; nra. }
  eapply reduce_near_monotone with (B := B) (P1 := Rpower (1 - IZR s1 / IZR S) (1000000 / IZR w)); [lia| | | |exact Hlim|exact U|exact L].
  - apply exp_pos.
  - apply Rpower_mono_base; lra.
  - apply Rle_trans with (Rpower 1 (1000000 / IZR w)); [apply Rpower_mono_base; lra|]. unfold Rpower. rewrite ln_1, Rmult_0_r, exp_0. lra.
Qed.

Lemma cross_near_monotone_ratio B0 B1 w1 B2 w2 a1 a2 r1 r2 : (0 <= a1)%Z -> (0 <= a2)%Z -> (a1 * B1 <= a2 * B0)%Z -> (B2 < 2 ^ 99)%Z ->
  / 8000000 <= Rpower (IZR B1 / (IZR B1 + IZR a2)) (IZR w1 / IZR w2) ->
  calculate_cross_connector_return B0 w1 B2 w2 a1 = Ok r1 -> calculate_cross_connector_return B1 w1 B2 w2 a2 = Ok r2 -> (r1 <= r2 + 1)%Z.
Proof.
  intros Ha1 Ha2 Hratio HB99 Hlim E1 E2. destruct (cross_domain _ _ _ _ _ _ Ha1 E1) as (HB0 & HB2 & Hw1 & Hw2 & Hc).
  destruct (cross_domain _ _ _ _ _ _ Ha2 E2) as (HB1 & _).
  pose proof (cross_upper B0 w1 B2 w2 a1 r1 ltac:(lia) E1) as U. pose proof (cross_lower B1 w1 B2 w2 a2 r2 ltac:(lia) E2) as L.
  assert (0 < IZR B0) as HS0 by (apply IZR_lt; lia).
  assert (0 < IZR B1) as HS' by (apply IZR_lt; lia). assert (0 < IZR w1) as Hw1' by (apply IZR_lt; lia). assert (0 < IZR w2) as Hw2' by (apply IZR_lt; lia).
  assert (0 <= IZR a1 /\ 0 <= IZR a2) as Hd' by (split; apply IZR_le; lia).
  assert (IZR a1 * IZR B1 <= IZR a2 * IZR B0) as Hr by (rewrite <- !mult_IZR; apply IZR_le; exact Hratio).
  assert (0 <= IZR w1 / IZR w2) as He by (left; apply Rdiv_lt_0_compat; lra).
  assert (0 < IZR B1 / (IZR B1 + IZR a2)) as Q1 by (apply Rdiv_lt_0_compat; lra).
  assert (IZR B1 / (IZR B1 + IZR a2) <= IZR B0 / (IZR B0 + IZR a1)) as Q2.
  { apply Rmult_le_reg_r with ((IZR B1 + IZR a2) * (IZR B0 + IZR a1)); [apply Rmult_lt_0_compat; lra|].
    replace (IZR B1 / (IZR B1 + IZR a2) * ((IZR B1 + IZR a2) * (IZR B0 + IZR a1))) with (IZR B1 * (IZR B0 + IZR a1)) by (field; lra).
    replace (IZR B0 / (IZR B0 + IZR a1) * ((IZR B1 + IZR a2) * (IZR B0 + IZR a1))) with (IZR B0 * (IZR B1 + IZR a2)) by (field; lra). lra. }
  assert (IZR B0 / (IZR B0 + IZR a1) <= 1) as Q3.
  { apply Rmult_le_reg_r with (IZR B0 + IZR a1); [lra|]. replace (IZR B0 / (IZR B0 + IZR a1) * (IZR B0 + IZR a1)) with (IZR B0) by (field; lra). lra. }
  eapply reduce_near_monotone with (B := B2) (P1 := Rpower (IZR B0 / (IZR B0 + IZR a1)) (IZR w1 / IZR w2)); [lia| | | |exact Hlim|exact U|exact L].
  - apply exp_pos.
  - apply Rpower_mono_base; lra.
  - apply Rle_trans with (Rpower 1 (IZR w1 / IZR w2)); [apply Rpower_mono_base; lra|]. unfold Rpower. rewrite ln_1, Rmult_0_r, exp_0. lra.
Qed.
Lemma cross_near_monotone B1 w1 B2 w2 a1 a2 r1 r2 : (0 <= a1 <= a2)%Z -> (B2 < 2 ^ 99)%Z ->
  / 8000000 <= Rpower (IZR B1 / (IZR B1 + IZR a2)) (IZR w1 / IZR w2) ->
  calculate_cross_connector_return B1 w1 B2 w2 a1 = Ok r1 -> calculate_cross_connector_return B1 w1 B2 w2 a2 = Ok r2 -> (r1 <= r2 + 1)%Z.
Proof.
  intros Hs HB99 Hlim E1 E2. destruct (cross_domain _ _ _ _ _ _ (proj1 Hs) E1) as (HB1 & _).
  eapply cross_near_monotone_ratio with (a1 := a1) (a2 := a2); [lia|lia| |exact HB99|exact Hlim|exact E1|exact E2]. apply Z.mul_le_mono_nonneg_r; lia.
Qed.
