(* Splitting an order into two. *)
From Coq Require Import ZArith List Lia Bool Reals Lra String.
From Verif Require Import Res FormulaConsts FormulaModel FormulaInt FormulaQuotes RealTools FormulaReal FormulaLower FormulaTrade FormulaAccuracy FormulaPropsProofs.
Import ListNotations.
Local Open Scope R_scope.

Lemma Rpower_split x y e : 0 < x -> 0 < y -> Rpower (x * y) e = Rpower x e * Rpower y e.
Proof. intros. unfold Rpower. rewrite ln_mult, Rmult_plus_distr_l, exp_plus by assumption. reflexivity. Qed.
Lemma Rpower_pos x e : 0 < Rpower x e. Proof. apply exp_pos. Qed.
Lemma Rpower_le1 x e : 0 < x <= 1 -> 0 <= e -> Rpower x e <= 1.
Proof.
  intros Hx He. unfold Rpower. rewrite <- exp_0 at 1. apply exp_le_compat.
  assert (ln x <= 0) by (rewrite <- ln_1; apply ln_le_compat; lra). nra.
Qed.

(* exp(8/2^127) *)
Lemma exp8 : exp (8 / 2 ^ 127) <= 1 + / 2 ^ 123.
Proof.
  set (t := 8 / 2 ^ 127). assert (/ 2 ^ 123 = 2 * t) as ->.
  { unfold t. change 127%nat with (123 + 4)%nat. rewrite pow_add. replace (2 ^ 4) with 16 by lra. field. }
  assert (0 < t <= / 2) as Ht.
  { unfold t. split; [apply Rmult_lt_0_compat; [lra|apply inv_pow2_pos]|].
    change 127%nat with (4 + 123)%nat. rewrite pow_add. replace (2 ^ 4) with 16 by lra.
    assert (1 <= 2 ^ 123) by (apply pow_R1_Rle; lra). set (z := 2 ^ 123) in *. clearbody z.
    apply Rmult_le_reg_r with (16 * z); [lra|]. replace (8 / (16 * z) * (16 * z)) with 8 by (field; lra). lra. }
  clearbody t. pose proof (exp_ge_lin (- t)) as X. rewrite exp_Ropp in X. pose proof (exp_pos t) as P.
  assert (exp t * (1 - t) <= 1) as M.
  { apply Rmult_le_compat_l with (r := exp t) in X; [|lra]. rewrite Rinv_r in X by lra. lra. }
  destruct (Rle_or_lt (exp t) (1 + 2 * t)); [assumption|]. exfalso. nra.
Qed.

Lemma pow2_112 : IZR (2 ^ 112) = 2 ^ 112. Proof. rewrite (pow_IZR 2 112). reflexivity. Qed.

Section Purchase.
Context (S B w d1 d2 r1 r2 r : Z).
Hypothesis (H1 : (0 <= d1)%Z) (H2 : (0 <= d2)%Z).
Hypothesis E1 : calculate_purchase_return S B w d1 = Ok r1.
Hypothesis E2 : calculate_purchase_return (S + r1) (B + d1) w d2 = Ok r2.
Hypothesis E : calculate_purchase_return S B w (d1 + d2) = Ok r.
Let X1 := Rpower (1 + IZR d1 / IZR B) (IZR w / 1000000).
Let X2 := Rpower (1 + IZR d2 / IZR (B + d1)) (IZR w / 1000000).
Let X := Rpower (1 + IZR (d1 + d2) / IZR B) (IZR w / 1000000).

Lemma split_facts : (0 < S /\ 0 < B /\ 0 <= r1 /\ 0 <= r2 /\ 0 <= r)%Z /\ X = X1 * X2 /\ 1 <= X1 /\ 1 <= X2.
Proof.
  assert (0 <= d1 + d2)%Z as H12 by lia. destruct (purchase_domain _ _ _ _ _ H1 E1) as (HS & HB & Hw & _).
  pose proof (purchase_value _ _ _ _ _ H1 E1) as (R1 & _). pose proof (purchase_value _ _ _ _ _ H2 E2) as (R2 & _).
  pose proof (purchase_value _ _ _ _ _ H12 E) as (R & _).
  assert (0 < IZR B) as HB' by (apply IZR_lt; lia).
  assert (0 < IZR (B + d1)) as HB1' by (apply IZR_lt; lia).
  assert (0 <= IZR d1) by (apply IZR_le; lia). assert (0 <= IZR d2) by (apply IZR_le; lia).
  assert (0 <= IZR d1 / IZR B) by (apply Rmult_le_pos; [lra|left; apply Rinv_0_lt_compat; lra]).
  assert (0 <= IZR d2 / IZR (B + d1)) by (apply Rmult_le_pos; [lra|left; apply Rinv_0_lt_compat; lra]).
  assert (0 <= IZR w / 1000000) by (apply Rmult_le_pos; [apply IZR_le; lia|lra]).
  split; [lia|]. split; [|split; apply Rpower_ge1; lra].
  unfold X, X1, X2. rewrite <- Rpower_split by lra. f_equal. rewrite plus_IZR in *. rewrite plus_IZR. field. lra.
Qed.

Lemma purchase_split_upper : X <= 8000000 -> (S + r < 2 ^ 112)%Z -> (r1 + r2 <= r + 1)%Z.
Proof.
  intros HX Hlim. assert (0 <= d1 + d2)%Z as H12 by lia. destruct split_facts as ((HS & HB & Hr1 & Hr2 & Hr) & EX & G1 & G2).
  pose proof (purchase_upper _ _ _ _ _ H1 E1) as U1. fold X1 in U1.
  pose proof (purchase_upper _ _ _ _ _ H2 E2) as U2. fold X2 in U2.
  pose proof (purchase_lower _ _ _ _ _ H12 E) as L. fold X in L.
  pose proof (inv_pow2_pos 114) as Q.
  rewrite Rmin_left in L by (assert (0 < / 2 ^ 114 * X) by (apply Rmult_lt_0_compat; [exact Q|unfold X; apply Rpower_pos]); lra).
  pose proof exp8 as X8. pose proof (exp_pos (8 / 2 ^ 127)) as P8. set (e := exp (8 / 2 ^ 127)) in *. clearbody e.
  assert (/ 2 ^ 123 = / 512 * / 2 ^ 114) as Eq by (change 123%nat with (114 + 9)%nat; rewrite pow_add; replace (2 ^ 9) with 512 by lra; field).
  rewrite Eq in X8. clear Eq.
  apply IZR_lt in Hlim. rewrite plus_IZR, pow2_112 in Hlim.
  assert (2 ^ 112 * / 2 ^ 114 = / 4) as E4 by (change 114%nat with (112 + 2)%nat; rewrite pow_add; replace (2 ^ 2) with 4 by lra; field).
  assert (1 <= 2 ^ 112) as P112 by (apply pow_R1_Rle; lra).
  remember (/ 2 ^ 114) as q eqn:Eq. clear Eq. set (M := 2 ^ 112) in *. clearbody M.
  assert (q <= / 4) as Hq by nra.
  rewrite plus_IZR in U2. apply IZR_le in Hr1, Hr2, Hr. apply IZR_lt in HS.
  assert (IZR S + IZR r1 + IZR r2 <= IZR S * X * (e * e)) as U.
  { eapply Rle_trans; [exact U2|]. rewrite EX. replace (IZR S * (X1 * X2) * (e * e)) with (IZR S * X1 * e * X2 * e) by ring.
    apply Rmult_le_compat_r; [lra|]. apply Rmult_le_compat_r; lra. }
  assert (IZR S * X * (1 - q) <= M + 1) as K by lra.
  assert (0 < IZR S * X) as PX by (apply Rmult_lt_0_compat; [lra|unfold X; apply Rpower_pos]).
  set (Y := IZR S * X) in *. replace (IZR S * (X * (1 - q))) with (Y * (1 - q)) in L by (unfold Y; ring). clearbody Y.
  assert (e * e <= 1 + / 128 * q) as Ee by nra.
  assert (Y * (e * e) <= Y * (1 + / 128 * q)) as U' by (apply Rmult_le_compat_l; lra).
  assert (Y * (1 - q) <= M + 1) as K' by lra.
  assert (Y * q <= Y * / 4) as K1 by (apply Rmult_le_compat_l; lra). assert (Y <= 4 / 3 * (M + 1)) as K2 by lra.
  assert (Y * (1 + / 128) * q < 1) as K3.
  { apply Rle_lt_trans with (4 / 3 * (M + 1) * (1 + / 128) * q); [apply Rmult_le_compat_r; [lra|]; apply Rmult_le_compat_r; lra|]. lra. }
  apply le_IZR. rewrite !plus_IZR. assert (IZR r1 + IZR r2 < IZR r + 2) as F1 by lra.
  rewrite <- !plus_IZR in F1. apply lt_IZR in F1. rewrite <- !plus_IZR. apply IZR_le. lia.
Qed.

Lemma purchase_split_lower : X <= 8000000 -> (S + r < 2 ^ 112)%Z -> IZR r <= IZR r1 + IZR r2 + X2 + 2.
Proof.
  intros HX Hlim. assert (0 <= d1 + d2)%Z as H12 by lia. destruct split_facts as ((HS & HB & Hr1 & Hr2 & Hr) & EX & G1 & G2).
  pose proof (purchase_lower _ _ _ _ _ H1 E1) as L1. fold X1 in L1.
  pose proof (purchase_lower _ _ _ _ _ H2 E2) as L2. fold X2 in L2.
  pose proof (purchase_lower _ _ _ _ _ H12 E) as L. fold X in L.
  pose proof (purchase_upper _ _ _ _ _ H12 E) as U. fold X in U.
  pose proof (inv_pow2_pos 114) as Q.
  rewrite Rmin_left in L by (assert (0 < / 2 ^ 114 * X) by (apply Rmult_lt_0_compat; lra || (unfold X; apply Rpower_pos)); lra).
  rewrite Rmin_left in L1 by (assert (0 < / 2 ^ 114 * X1) by (apply Rmult_lt_0_compat; lra); nra).
  rewrite Rmin_left in L2 by (assert (0 < / 2 ^ 114 * X2) by (apply Rmult_lt_0_compat; lra); nra).
  pose proof exp8 as X8. pose proof (exp_pos (8 / 2 ^ 127)) as P8. set (e := exp (8 / 2 ^ 127)) in *. clearbody e.
  assert (/ 2 ^ 123 = / 512 * / 2 ^ 114) as Eq by (change 123%nat with (114 + 9)%nat; rewrite pow_add; replace (2 ^ 9) with 512 by lra; field).
  rewrite Eq in X8. clear Eq.
  apply IZR_lt in Hlim. rewrite plus_IZR, pow2_112 in Hlim.
  assert (2 ^ 112 * / 2 ^ 114 = / 4) as E4 by (change 114%nat with (112 + 2)%nat; rewrite pow_add; replace (2 ^ 2) with 4 by lra; field).
  assert (1024 <= 2 ^ 112) as P112 by (apply Rle_trans with (2 ^ 10); [lra|apply Rle_pow; [lra|lia]]).
  remember (/ 2 ^ 114) as q eqn:Eq. clear Eq. set (M := 2 ^ 112) in *. clearbody M.
  assert (q <= / 4096) as Hq by nra.
  rewrite plus_IZR in L2. apply IZR_le in Hr1, Hr2, Hr. apply IZR_lt in HS.
  assert (IZR S * X * (1 - q) * (1 - q) - X2 * (1 - q) - 1 <= IZR S + IZR r1 + IZR r2) as L'.
  { assert ((IZR S * (X1 * (1 - q)) - 1) * (X2 * (1 - q)) <= (IZR S + IZR r1) * (X2 * (1 - q))) as M1.
    { apply Rmult_le_compat_r; [apply Rmult_le_pos; lra|lra]. }
    rewrite EX. lra. }
  assert (0 < IZR S * X) as PX by (apply Rmult_lt_0_compat; [lra|unfold X; apply Rpower_pos]).
  set (Y := IZR S * X) in *. replace (IZR S * (X * (1 - q))) with (Y * (1 - q)) in L by (unfold Y; ring). clearbody Y.
  assert (Y * q <= Y * / 4096) as K1 by (apply Rmult_le_compat_l; lra). assert (Y <= 5 / 4 * M) as K2 by lra.
  assert (Y * e <= Y * (1 + / 512 * q)) as U' by (apply Rmult_le_compat_l; lra).
  assert (Y * q <= 5 / 16) as K3. { apply Rle_trans with (5 / 4 * M * q); [apply Rmult_le_compat_r; lra|]. lra. }
  assert (0 <= Y * q * q) by (apply Rmult_le_pos; [apply Rmult_le_pos; lra|lra]). assert (0 <= X2 * q) by (apply Rmult_le_pos; lra). lra.
Qed.
End Purchase.

(* sales and cross conversions: what is left *)
Lemma split_left B g1 g2 g Y1 Y2 t q : 0 <= t -> 0 <= q -> 0 <= B -> 0 <= Y1 <= 1 -> 0 <= Y2 <= 1 -> 0 <= B - g1 <= B -> B * (2 * t + q) < 1 ->
  g1 <= B * (1 - Y1) + B * t -> g2 <= (B - g1) * (1 - Y2) + (B - g1) * t -> B * (1 - Y1 * Y2 * (1 + q)) - 1 <= g ->
  g1 + g2 < g + 2.
Proof.
  intros Ht Hq HB H1 H2 Hl Hs U1 U2 L.
  assert ((B * Y1 - B * t) * Y2 <= (B - g1) * Y2) as M1 by (apply Rmult_le_compat_r; lra).
  assert ((B - g1) * t <= B * t) as M2 by (apply Rmult_le_compat_r; lra).
  assert (B * t * Y2 <= B * t) as M3. { rewrite <- (Rmult_1_r (B * t)) at 2. apply Rmult_le_compat_l; [apply Rmult_le_pos|]; lra. }
  assert (B * (Y1 * Y2) * q <= B * q) as M4.
  { apply Rmult_le_compat_r; [lra|]. rewrite <- (Rmult_1_r B) at 2. apply Rmult_le_compat_l; [lra|]. nra. }
  lra.
Qed.
Lemma split_right B g1 g2 g Y1 Y2 t q : 0 <= t -> 0 <= q <= 1 / 4 -> 0 <= B -> 0 <= Y1 <= 1 -> 0 <= Y2 <= 1 -> 0 <= B - g1 <= B -> B * (t + 3 * q) < 1 / 2 ->
  g <= B * (1 - Y1 * Y2) + B * t -> (B - g1) * (1 - Y2 * (1 + q)) - 1 <= g2 -> B * (1 - Y1 * (1 + q)) - 1 <= g1 ->
  g < g1 + g2 + 3.
Proof.
  intros Ht Hq HB H1 H2 Hl Hs U L2 L1.
  assert ((B - g1) * (Y2 * (1 + q)) <= (B * Y1 * (1 + q) + 1) * (Y2 * (1 + q))) as M1.
  { apply Rmult_le_compat_r; [apply Rmult_le_pos|]; lra. }
  assert (Y2 * (1 + q) <= 1 + q) as M2. { rewrite <- (Rmult_1_l (1 + q)) at 2. apply Rmult_le_compat_r; lra. }
  assert (B * (Y1 * Y2) * (2 * q + q * q) <= B * (3 * q)) as M4.
  { apply Rle_trans with (B * (2 * q + q * q)).
    - apply Rmult_le_compat_r; [nra|]. rewrite <- (Rmult_1_r B) at 2. apply Rmult_le_compat_l; [lra|]. nra.
    - apply Rmult_le_compat_l; [lra|]. nra. }
  lra.
Qed.

Lemma small_96 (B : Z) : (0 <= B < 2 ^ 96)%Z -> IZR B * (2 * / 2 ^ 104 + / 2 ^ 100) < 1 /\ IZR B * (/ 2 ^ 104 + 3 * / 2 ^ 100) < 1 / 2.
Proof.
  intros [H0 H]. apply IZR_lt in H. apply IZR_le in H0. replace (IZR (2 ^ 96)) with (2 ^ 96) in H by (rewrite (pow_IZR 2 96); reflexivity).
  replace (/ 2 ^ 104) with (/ 256 * / 2 ^ 96) by (change 104%nat with (96 + 8)%nat; rewrite pow_add; replace (2 ^ 8) with 256 by lra; field).
  replace (/ 2 ^ 100) with (/ 16 * / 2 ^ 96) by (change 100%nat with (96 + 4)%nat; rewrite pow_add; replace (2 ^ 4) with 16 by lra; field).
  pose proof (inv_pow2_pos 96) as Q. assert (IZR B * / 2 ^ 96 < 1) as K.
  { apply Rmult_lt_reg_r with (2 ^ 96); [apply pow_lt; lra|]. rewrite Rmult_assoc, Rinv_l, Rmult_1_r, Rmult_1_l by (apply pow_nonzero; lra). exact H. }
  assert (0 <= IZR B * / 2 ^ 96) by (apply Rmult_le_pos; lra). set (z := / 2 ^ 96) in *. clearbody z. split; lra.
Qed.

Lemma q100 : 0 <= / 2 ^ 100 <= 1 / 4.
Proof.
  pose proof (inv_pow2_pos 100). split; [lra|]. unfold Rdiv. rewrite Rmult_1_l. apply Rinv_le_contravar; [lra|].
  apply Rle_trans with (2 ^ 2); [lra|apply Rle_pow; [lra|lia]].
Qed.
Lemma max_left Y : / 8000000 <= Y -> Rmax (Y * (1 + / 2 ^ 100)) (/ 8000000) = Y * (1 + / 2 ^ 100).
Proof. intros H. pose proof q100 as Q. set (q := / 2 ^ 100) in *. clearbody q. apply Rmax_left. assert (0 <= Y * q) by (apply Rmult_le_pos; lra). lra. Qed.

Lemma sale_split S B w a1 a2 g1 g2 g : (0 <= a1)%Z -> (0 <= a2)%Z -> (a1 + a2 < S)%Z -> (B < 2 ^ 96)%Z ->
  calculate_sale_return S B w a1 = Ok g1 -> calculate_sale_return (S - a1) (B - g1) w a2 = Ok g2 ->
  calculate_sale_return S B w (a1 + a2) = Ok g ->
  / 8000000 <= Rpower (1 - IZR (a1 + a2) / IZR S) (1000000 / IZR w) ->
  (g - 2 <= g1 + g2 <= g + 1)%Z.
Proof.
  intros H1 H2 HS HB E1 E2 E HY.
  destruct (proj1 (sale_domain_iff _ _ _ _ H1) (ex_intro _ _ E1)) as (HS0 & HB0 & Hw & _).
  pose proof (sale_value _ _ _ _ _ H1 E1) as (R1 & _).
  pose proof (sale_upper S B w a1 g1 ltac:(lia) E1) as U1. pose proof (sale_upper (S - a1) (B - g1) w a2 g2 ltac:(lia) E2) as U2.
  pose proof (sale_upper S B w (a1 + a2) g ltac:(lia) E) as U. pose proof (sale_lower S B w (a1 + a2) g ltac:(lia) E) as L.
  pose proof (sale_lower S B w a1 g1 ltac:(lia) E1) as L1. pose proof (sale_lower (S - a1) (B - g1) w a2 g2 ltac:(lia) E2) as L2.
  set (k := 1000000 / IZR w) in *.
  assert (0 <= k) as Hk by (unfold k; apply Rmult_le_pos; [lra|left; apply Rinv_0_lt_compat, IZR_lt; lia]).
  assert (0 < IZR S) as PS by (apply IZR_lt; lia). assert (0 < IZR (S - a1)) as PS1 by (apply IZR_lt; lia).
  assert (0 <= IZR a1) as A1 by (apply IZR_le; lia). assert (0 <= IZR a2) as A2 by (apply IZR_le; lia).
  assert (IZR a1 + IZR a2 < IZR S) as A3 by (rewrite <- plus_IZR; apply IZR_lt; lia).
  assert (0 < 1 - IZR a1 / IZR S <= 1) as B1.
  { split; apply Rmult_lt_reg_r with (IZR S) || apply Rmult_le_reg_r with (IZR S); try lra;
      replace ((1 - IZR a1 / IZR S) * IZR S) with (IZR S - IZR a1) by (field; lra); lra. }
  assert (0 < 1 - IZR a2 / IZR (S - a1) <= 1) as B2.
  { rewrite minus_IZR in *. split; apply Rmult_lt_reg_r with (IZR S - IZR a1) || apply Rmult_le_reg_r with (IZR S - IZR a1); try lra;
      replace ((1 - IZR a2 / (IZR S - IZR a1)) * (IZR S - IZR a1)) with (IZR S - IZR a1 - IZR a2) by (field; lra); lra. }
  assert (Rpower (1 - IZR (a1 + a2) / IZR S) k = Rpower (1 - IZR a1 / IZR S) k * Rpower (1 - IZR a2 / IZR (S - a1)) k) as EY.
  { rewrite <- Rpower_split by lra. f_equal. rewrite plus_IZR, minus_IZR in *. field. lra. }
  rewrite EY in U, L, HY.
  pose proof (Rpower_le1 _ k B1 Hk) as Y1. pose proof (Rpower_le1 _ k B2 Hk) as Y2.
  pose proof (Rpower_pos (1 - IZR a1 / IZR S) k) as Z1. pose proof (Rpower_pos (1 - IZR a2 / IZR (S - a1)) k) as Z2.
  set (y1 := Rpower (1 - IZR a1 / IZR S) k) in *. set (y2 := Rpower (1 - IZR a2 / IZR (S - a1)) k) in *. clearbody y1 y2.
  rewrite max_left in L by exact HY. rewrite max_left in L1 by nra. rewrite max_left in L2 by nra.
  destruct (small_96 B ltac:(lia)) as [S1 S2]. pose proof q100 as Q. pose proof (inv_pow2_pos 104) as P104.
  unfold Rdiv in U1, U2, U. rewrite minus_IZR in U2, L2.
  assert (0 <= IZR B - IZR g1 <= IZR B) as HL by (rewrite <- minus_IZR; split; apply IZR_le; lia).
  assert (0 <= IZR B) as HB' by (apply IZR_le; lia).
  remember (/ 2 ^ 104) as t eqn:Et. clear Et. remember (/ 2 ^ 100) as q eqn:Eq. clear Eq.
  pose proof (split_left (IZR B) (IZR g1) (IZR g2) (IZR g) y1 y2 t q ltac:(lra) ltac:(lra) HB' ltac:(lra) ltac:(lra) HL S1 U1 U2 L) as F1.
  pose proof (split_right (IZR B) (IZR g1) (IZR g2) (IZR g) y1 y2 t q ltac:(lra) ltac:(lra) HB' ltac:(lra) ltac:(lra) HL S2 U L2 L1) as F2.
  rewrite <- !plus_IZR in F1, F2. apply lt_IZR in F1, F2. lia.
Qed.

Lemma cross_split b1 w1 b2 w2 x1 x2 g1 g2 g : (0 <= x1)%Z -> (0 <= x2)%Z -> (b2 < 2 ^ 96)%Z ->
  calculate_cross_connector_return b1 w1 b2 w2 x1 = Ok g1 -> calculate_cross_connector_return (b1 + x1) w1 (b2 - g1) w2 x2 = Ok g2 ->
  calculate_cross_connector_return b1 w1 b2 w2 (x1 + x2) = Ok g ->
  / 8000000 <= Rpower (IZR b1 / (IZR b1 + IZR (x1 + x2))) (IZR w1 / IZR w2) ->
  (g - 2 <= g1 + g2 <= g + 1)%Z.
Proof.
  intros H1 H2 HB E1 E2 E HY.
  destruct (proj1 (cross_domain_iff _ _ _ _ _ H1) (ex_intro _ _ E1)) as (HS0 & HB0 & Hw1 & Hw & _).
  pose proof (cross_value _ _ _ _ _ _ H1 E1) as (R1 & _).
  pose proof (cross_upper _ _ _ _ _ _ H1 E1) as U1. pose proof (cross_upper _ _ _ _ _ _ H2 E2) as U2.
  pose proof (cross_upper b1 w1 b2 w2 (x1 + x2) g ltac:(lia) E) as U. pose proof (cross_lower b1 w1 b2 w2 (x1 + x2) g ltac:(lia) E) as L.
  pose proof (cross_lower _ _ _ _ _ _ H1 E1) as L1. pose proof (cross_lower _ _ _ _ _ _ H2 E2) as L2.
  set (k := IZR w1 / IZR w2) in *.
  assert (0 <= k) as Hk by (unfold k; apply Rmult_le_pos; [apply IZR_le; lia|left; apply Rinv_0_lt_compat, IZR_lt; lia]).
  assert (0 < IZR b1) as PS by (apply IZR_lt; lia).
  assert (0 <= IZR x1) as A1 by (apply IZR_le; lia). assert (0 <= IZR x2) as A2 by (apply IZR_le; lia).
  rewrite plus_IZR in U2, L2, U, L, HY.
  assert (forall a b, 0 < a -> 0 <= b -> 0 < a / (a + b) <= 1) as Hfrac.
  { intros a b Ha Hb. split; [apply Rdiv_lt_0_compat; lra|]. apply Rmult_le_reg_r with (a + b); [lra|].
    replace (a / (a + b) * (a + b)) with a by (field; lra). lra. }
  pose proof (Hfrac (IZR b1) (IZR x1) PS A1) as B1. pose proof (Hfrac (IZR b1 + IZR x1) (IZR x2) ltac:(lra) A2) as B2.
  assert (Rpower (IZR b1 / (IZR b1 + (IZR x1 + IZR x2))) k = Rpower (IZR b1 / (IZR b1 + IZR x1)) k * Rpower ((IZR b1 + IZR x1) / (IZR b1 + IZR x1 + IZR x2)) k) as EY.
  { rewrite <- Rpower_split by lra. f_equal. field. lra. }
  rewrite EY in U, L, HY.
  pose proof (Rpower_le1 _ k B1 Hk) as Y1. pose proof (Rpower_le1 _ k B2 Hk) as Y2.
  pose proof (Rpower_pos (IZR b1 / (IZR b1 + IZR x1)) k) as Z1. pose proof (Rpower_pos ((IZR b1 + IZR x1) / (IZR b1 + IZR x1 + IZR x2)) k) as Z2.
  set (y1 := Rpower (IZR b1 / (IZR b1 + IZR x1)) k) in *. set (y2 := Rpower ((IZR b1 + IZR x1) / (IZR b1 + IZR x1 + IZR x2)) k) in *. clearbody y1 y2.
  rewrite max_left in L by exact HY. rewrite max_left in L1 by nra. rewrite max_left in L2 by nra.
  destruct (small_96 b2 ltac:(lia)) as [S1 S2]. pose proof q100 as Q. pose proof (inv_pow2_pos 104) as P104.
  unfold Rdiv in U1, U2, U. rewrite minus_IZR in U2, L2.
  assert (0 <= IZR b2 - IZR g1 <= IZR b2) as HL by (rewrite <- minus_IZR; split; apply IZR_le; lia).
  assert (0 <= IZR b2) as HB' by (apply IZR_le; lia).
  remember (/ 2 ^ 104) as t eqn:Et. clear Et. remember (/ 2 ^ 100) as q eqn:Eq. clear Eq.
  pose proof (split_left (IZR b2) (IZR g1) (IZR g2) (IZR g) y1 y2 t q ltac:(lra) ltac:(lra) HB' ltac:(lra) ltac:(lra) HL S1 U1 U2 L) as F1.
  pose proof (split_right (IZR b2) (IZR g1) (IZR g2) (IZR g) y1 y2 t q ltac:(lra) ltac:(lra) HB' ltac:(lra) ltac:(lra) HL S2 U L2 L1) as F2.
  rewrite <- !plus_IZR in F1, F2. apply lt_IZR in F1, F2. lia.
Qed.
