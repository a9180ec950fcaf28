(* Python Decimals with getcontext().prec = 100 (print_function_optimal_log.py:30, print_function_optimal_exp.py:31,
   print_ln2_scaling_factors.py:28): each operation (product, quotient, exp, ln) yields the exact result rounded to the
   nearest number of at most 100 decimal digits.  Left open: which of two equally near numbers is taken (ROUND_HALF_EVEN in
   Python).  Not modelled: the bounds of the exponents (999999). *)
From Coq Require Import ZArith List Lia Bool Reals Lra.
Local Open Scope R_scope.

Definition scaled (m : Z) (e : Z) : R := IZR m * powerRZ 10 e.
(* at most 100 digits *)
Definition decimal (x : R) : Prop := exists m e, (Z.abs m < 10 ^ 100)%Z /\ x = scaled m e.
(* y is a decimal nearest to x *)
Definition rounds (x y : R) : Prop := decimal y /\ forall z, decimal z -> Rabs (y - x) <= Rabs (z - x).

(* ---------- powers of ten ---------- *)
Lemma pow10_pos e : 0 < powerRZ 10 e.
Proof. apply powerRZ_lt. lra. Qed.
Lemma pow10_S e : powerRZ 10 (e + 1) = 10 * powerRZ 10 e.
Proof. rewrite powerRZ_add by lra. rewrite powerRZ_1. lra. Qed.
Lemma pow10_nat e k : (0 <= k)%Z -> powerRZ 10 (e + k) = IZR (10 ^ k) * powerRZ 10 e.
Proof.
  intros Hk. rewrite powerRZ_add by lra. rewrite Rmult_comm. f_equal.
  rewrite <- (Z2Nat.id k) by exact Hk. rewrite <- pow_powerRZ, <- pow_IZR. reflexivity.
Qed.
Lemma up_pow x : 0 < x -> exists n, x < 10 ^ n.
Proof.
  intros Hx. destruct (Pow_x_infinity 10) with (b := x) as [N HN]; [rewrite Rabs_pos_eq; lra|].
  exists (S N). specialize (HN N ltac:(lia)). rewrite Rabs_pos_eq in HN by (apply pow_le; lra). cbn [pow].
  assert (0 < 10 ^ N) by (apply pow_lt; lra). lra.
Qed.
(* every positive number has a leading digit *)
Lemma magnitude x : 0 < x -> exists e, powerRZ 10 e <= x < powerRZ 10 (e + 1).
Proof.
  intros Hx. destruct (up_pow x Hx) as [n Hn]. destruct (up_pow (/ x)) as [m Hm]; [now apply Rinv_0_lt_compat|].
  assert (powerRZ 10 (- Z.of_nat m) <= x) as Hlo.
  { rewrite powerRZ_neg'. rewrite <- pow_powerRZ. left.
    apply Rmult_lt_reg_l with (/ x); [now apply Rinv_0_lt_compat|]. rewrite Rinv_l by lra.
    apply Rmult_lt_reg_r with (10 ^ m); [apply pow_lt; lra|]. rewrite Rmult_assoc, Rinv_l by (apply pow_nonzero; lra). lra. }
  rewrite pow_powerRZ in Hn. generalize dependent (- Z.of_nat m)%Z. intros a Hlo.
  assert (forall k : nat, x < powerRZ 10 (a + Z.of_nat k) -> exists e, powerRZ 10 e <= x < powerRZ 10 (e + 1)) as IH.
  { induction k as [|k IHk]; intros H.
    - rewrite Z.add_0_r in H. lra.
    - destruct (Rlt_le_dec x (powerRZ 10 (a + Z.of_nat k))) as [H'|H']; [now apply IHk|].
      exists (a + Z.of_nat k)%Z. split; [exact H'|]. replace (a + Z.of_nat k + 1)%Z with (a + Z.of_nat (S k))%Z by lia. exact H. }
  destruct (Z_lt_le_dec (Z.of_nat n) a) as [C|C].
  - exfalso. assert (powerRZ 10 (Z.of_nat n) <= powerRZ 10 a) as Hm'; [|lra].
    replace a with (Z.of_nat n + (a - Z.of_nat n))%Z by lia. rewrite pow10_nat by lia.
    assert (1 <= IZR (10 ^ (a - Z.of_nat n))). { apply IZR_le. pose proof (Z.pow_pos_nonneg 10 (a - Z.of_nat n)). lia. }
    pose proof (pow10_pos (Z.of_nat n)). nra.
  - apply (IH (Z.to_nat (Z.of_nat n - a))). rewrite Z2Nat.id by lia. replace (a + (Z.of_nat n - a))%Z with (Z.of_nat n) by lia. exact Hn.
Qed.

(* ---------- the two neighbours of a positive number ---------- *)
Lemma decimal_scaled m e : (Z.abs m <= 10 ^ 100)%Z -> decimal (scaled m e).
Proof.
  intros H. destruct (Z.eq_dec (Z.abs m) (10 ^ 100)) as [E|E].
  - exists (m / 10)%Z, (e + 1)%Z. assert (m = 10 ^ 100 \/ m = - 10 ^ 100)%Z as [->| ->] by lia.
    + split; [reflexivity|]. unfold scaled. rewrite pow10_S. rewrite <- Rmult_assoc. f_equal. rewrite <- mult_IZR. reflexivity.
    + split; [reflexivity|]. unfold scaled. rewrite pow10_S. rewrite <- Rmult_assoc. f_equal. rewrite <- mult_IZR. reflexivity.
  - exists m, e. split; [lia|reflexivity].
Qed.
Lemma neighbours x : 0 < x -> exists f e, scaled f e <= x < scaled (f + 1) e /\ (10 ^ 99 <= f < 10 ^ 100)%Z /\
  forall z, decimal z -> z <= scaled f e \/ scaled (f + 1) e <= z.
Proof.
  intros Hx. destruct (magnitude x Hx) as (e0 & H1 & H2). set (e := (e0 - 99)%Z). pose proof (pow10_pos e) as He.
  replace e0 with (e + 99)%Z in H1 by lia. replace (e0 + 1)%Z with (e + 100)%Z in H2 by lia.
  rewrite pow10_nat in H1, H2 by lia. set (f := (up (x / powerRZ 10 e) - 1)%Z). exists f, e.
  destruct (archimed (x / powerRZ 10 e)) as [A1 A2]. assert (IZR f <= x / powerRZ 10 e < IZR f + 1) as [F1 F2].
  { unfold f. rewrite minus_IZR. lra. }
  assert (x = x / powerRZ 10 e * powerRZ 10 e) as Ex by (field; lra). set (q := x / powerRZ 10 e) in *. clearbody q f e. clear A1 A2.
  assert (IZR (10 ^ 99) <= q < IZR (10 ^ 100)) as [Q1 Q2].
  { split; [apply Rmult_le_reg_r with (powerRZ 10 e)|apply Rmult_lt_reg_r with (powerRZ 10 e)]; lra. }
  assert (10 ^ 99 <= f < 10 ^ 100)%Z as Hf.
  { split; [apply Z.lt_succ_r; apply lt_IZR; unfold Z.succ; rewrite plus_IZR; lra|apply lt_IZR; lra]. }
  split; [|split; [exact Hf|]].
  - unfold scaled. rewrite plus_IZR. rewrite Ex. split; [apply Rmult_le_compat_r; lra|apply Rmult_lt_compat_r; lra].
  - intros z (m & k & Hm & ->). destruct (Z_lt_le_dec k e) as [C|C].
    + left. unfold scaled. replace e with (k + 1 + (e - k - 1))%Z by lia. rewrite pow10_nat, pow10_S by lia.
      assert (1 <= IZR (10 ^ (e - k - 1))) as P1. { apply IZR_le. pose proof (Z.pow_pos_nonneg 10 (e - k - 1)). lia. }
      pose proof (pow10_pos k) as P2.
      assert (IZR m <= IZR f * 10) as P3. { rewrite <- mult_IZR. apply IZR_le. change (10 ^ 100)%Z with (10 ^ 99 * 10)%Z in Hm. lia. }
      assert (0 <= IZR f) as P4. { apply IZR_le. pose proof (Z.pow_pos_nonneg 10 99). lia. }
      set (t := IZR (10 ^ (e - k - 1))) in *. set (u := powerRZ 10 k) in *.
      apply Rle_trans with (IZR f * 10 * u); [apply Rmult_le_compat_r; lra|]. replace (IZR f * (t * (10 * u))) with (IZR f * 10 * u * t) by ring.
      assert (0 <= IZR f * 10 * u) by nra. nra.
    + unfold scaled. replace k with (e + (k - e))%Z by lia. rewrite pow10_nat by lia. rewrite <- Rmult_assoc, <- mult_IZR.
      destruct (Z_le_gt_dec (m * 10 ^ (k - e)) f) as [D|D]; [left|right]; (apply Rmult_le_compat_r; [lra|apply IZR_le; lia]).
Qed.

(* ---------- consequences ---------- *)
(* a rounding always exists *)
Lemma rounds_exists x : 0 < x -> exists y, rounds x y.
Proof.
  intros Hx. destruct (neighbours x Hx) as (f & e & [H1 H2] & Hf & Hn). destruct (Rle_lt_dec (x - scaled f e) (scaled (f + 1) e - x)) as [C|C].
  - exists (scaled f e). split; [apply decimal_scaled; lia|]. intros z Hz. specialize (Hn z Hz).
    rewrite (Rabs_left1 (scaled f e - x)) by lra. destruct Hn as [Hn|Hn]; [rewrite Rabs_left1 by lra; lra|rewrite Rabs_pos_eq by lra; lra].
  - exists (scaled (f + 1) e). split; [apply decimal_scaled; lia|]. intros z Hz. specialize (Hn z Hz).
    rewrite (Rabs_pos_eq (scaled (f + 1) e - x)) by lra. destruct Hn as [Hn|Hn]; [rewrite Rabs_left1 by lra; lra|rewrite Rabs_pos_eq by lra; lra].
Qed.
(* what is a decimal is not changed *)
Lemma rounds_decimal x y : decimal x -> rounds x y -> y = x.
Proof.
  intros Hx [_ H]. specialize (H x Hx). replace (x - x) with 0 in H by ring. rewrite Rabs_R0 in H. pose proof (Rabs_pos (y - x)).
  assert (Rabs (y - x) = 0) as E by lra. destruct (Req_dec (y - x) 0) as [E'|E']; [lra|]. now apply Rabs_no_R0 in E'.
Qed.
Lemma decimal_rounds x : decimal x -> rounds x x.
Proof. intros Hx. split; [exact Hx|]. intros z _. replace (x - x) with 0 by ring. rewrite Rabs_R0. apply Rabs_pos. Qed.
Lemma decimal_IZR m : (Z.abs m <= 10 ^ 100)%Z -> decimal (IZR m).
Proof. intros H. replace (IZR m) with (scaled m 0). { now apply decimal_scaled. } unfold scaled. rewrite powerRZ_O. ring. Qed.

(* x and y differ by at most a fraction e *)
Definition within (e x y : R) : Prop := 0 < x /\ x * (1 - e) <= y <= x * (1 + e).
Definition ulp : R := / IZR (10 ^ 99).
Lemma ulp_small : 0 < ulp <= / IZR (2 ^ 320).
Proof.
  assert (0 < 2 ^ 320)%Z as A by (apply Z.ltb_lt; vm_compute; reflexivity). assert (2 ^ 320 <= 10 ^ 99)%Z as B by (apply Z.leb_le; vm_compute; reflexivity).
  unfold ulp. set (a := (2 ^ 320)%Z) in *. set (b := (10 ^ 99)%Z) in *. clearbody a b.
  split; [apply Rinv_0_lt_compat, IZR_lt; lia|]. apply Rinv_le_contravar; [apply IZR_lt; lia|apply IZR_le; lia].
Qed.
Lemma rounds_within x y : 0 < x -> rounds x y -> within ulp x y.
Proof.
  intros Hx [_ H]. split; [exact Hx|]. destruct (neighbours x Hx) as (f & e & [H1 H2] & Hf & _).
  specialize (H (scaled f e) (decimal_scaled f e ltac:(lia))). rewrite (Rabs_left1 (scaled f e - x)) in H by lra.
  assert (scaled (f + 1) e - scaled f e = powerRZ 10 e) as E by (unfold scaled; rewrite plus_IZR; ring).
  assert (IZR (10 ^ 99) * powerRZ 10 e <= x) as B.
  { apply Rle_trans with (scaled f e); [|exact H1]. unfold scaled. apply Rmult_le_compat_r; [left; apply pow10_pos|apply IZR_le; lia]. }
  assert (powerRZ 10 e <= x * ulp) as B2.
  { unfold ulp. assert (0 < IZR (10 ^ 99)) as P by (apply IZR_lt; reflexivity). apply Rmult_le_reg_l with (IZR (10 ^ 99)); [exact P|].
    replace (IZR (10 ^ 99) * (x * / IZR (10 ^ 99))) with x by (field; lra). exact B. }
  assert (Rabs (y - x) <= x * ulp) as B3 by lra.
  pose proof (Rle_abs (y - x)). pose proof (Rle_abs (- (y - x))) as B5. rewrite Rabs_Ropp in B5. lra.
Qed.
Lemma within_pos e x y : 0 <= e <= / 4 -> within e x y -> 0 < y.
Proof. intros He [Hx H]. nra. Qed.
Lemma within_weaken e f x y : e <= f -> within e x y -> within f x y.
Proof. intros He [Hx H]. split; [exact Hx|]. nra. Qed.
Lemma within_trans e f x y z : 0 <= e <= / 4 -> 0 <= f -> within e x y -> within f y z -> within (e + 2 * f) x z.
Proof. intros He Hf [Hx H] [Hy K]. split; [exact Hx|]. assert (y * f <= x * (1 + e) * f) by (apply Rmult_le_compat_r; lra). assert (0 <= x * f) by nra. nra. Qed.
Lemma within_mult e c x y : 0 < c -> within e x y -> within e (c * x) (c * y).
Proof. intros Hc [Hx H]. split; [nra|]. rewrite !Rmult_assoc. split; apply Rmult_le_compat_l; lra. Qed.
Lemma within_div e c x y : 0 < c -> 0 <= e <= / 4 -> within e x y -> within (2 * e) (c / x) (c / y).
Proof.
  intros Hc He HW. pose proof (within_pos _ _ _ He HW) as Hy. destruct HW as [Hx [H1 H2]]. split; [now apply Rdiv_lt_0_compat|].
  assert (0 < c * / x) as P by (apply Rmult_lt_0_compat; [exact Hc|now apply Rinv_0_lt_compat]).
  replace (c / y) with (c * / x * (x / y)) by (field; lra). unfold Rdiv at 1. split.
  - apply Rmult_le_compat_l; [lra|]. apply Rmult_le_reg_r with y; [exact Hy|]. replace (x / y * y) with x by (field; lra). nra.
  - apply Rmult_le_compat_l; [lra|]. apply Rmult_le_reg_r with y; [exact Hy|]. replace (x / y * y) with x by (field; lra). nra.
Qed.
