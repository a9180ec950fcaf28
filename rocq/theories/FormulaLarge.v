(* Powers above e^16: the value is the Taylor polynomial of degree 33, not the exponential. *)
From Coq Require Import ZArith List Lia Bool Reals Lra String.
From Verif Require Import Res FormulaConsts FormulaModel FormulaInt FormulaQuotes RealTools FormulaReal FormulaLower.
Import ListNotations.
Local Open Scope R_scope.

Section Gen.
Context (P : Z) (y : Z) (q c : R).
Hypothesis HP : (0 < P)%Z.
Hypothesis Hy : (0 <= y)%Z.
Hypothesis Hc0 : 0 <= c.
Hypothesis Hstep : forall k z, (0 <= z)%Z -> q * (IZR y / IZR P) ^ k + c <= IZR z -> q * (IZR y / IZR P) ^ S k + c <= IZR (z * y / P).

Lemma series_loop_gen l D : forall k z acc, (0 <= z)%Z -> coefs_ok l (S k) D = true ->
  q * (IZR y / IZR P) ^ k + c <= IZR z ->
  IZR acc + q * IZR D * (sum_f_R0 (eterm (IZR y / IZR P)) (k + List.length l) - sum_f_R0 (eterm (IZR y / IZR P)) k)
  <= IZR (series_loop P l y z acc).
Proof.
  induction l as [|a l IH]; cbn [coefs_ok series_loop]; intros k z acc Hz Hc Hb.
  - cbn [List.length]. rewrite Nat.add_0_r. lra.
  - rewrite !andb_true_iff in Hc. destruct Hc as [[H1 H2] H3]. apply Z.eqb_eq in H1. apply Z.leb_le in H3.
    assert (0 <= z * y / P)%Z as Hz' by (apply Z.div_pos; nia).
    pose proof (Hstep k z Hz Hb) as Hb'. set (u := IZR y / IZR P) in *.
    specialize (IH (S k) (z * y / P)%Z (acc + z * y / P * a)%Z Hz' H2 Hb').
    eapply Rle_trans; [|exact IH].
    replace (S k + List.length l)%nat with (k + S (List.length l))%nat by lia.
    cbn [sum_f_R0 List.length]. rewrite !plus_IZR, mult_IZR.
    assert (q * IZR D * eterm u (S k) <= IZR (z * y / P) * IZR a) as Hterm.
    { assert (0 <= IZR a) by (apply IZR_le; exact H3).
      apply Rle_trans with ((q * u ^ S k) * IZR a); [|apply Rmult_le_compat_r; lra].
      unfold eterm. rewrite <- H1, mult_IZR, zfact_fact.
      pose proof (INR_fact_neq_0 (S k)). right. field; assumption. }
    lra.
Qed.
End Gen.

Definition T33 (y : R) : R := sum_f_R0 (eterm y) 33.

Lemma T33_pos y : 0 <= y -> 1 + y <= T33 y.
Proof.
  intros Hy. unfold T33. assert (forall n, 1 + y <= sum_f_R0 (eterm y) (S n)) as H; [|apply (H 32%nat)].
  induction n as [|n IH].
  - cbn [sum_f_R0]. unfold eterm. simpl. right. field.
  - rewrite tech5. pose proof (eterm_nonneg y (S (S n)) Hy). lra.
Qed.
Lemma T33_mono y z : 0 <= y <= z -> T33 y <= T33 z.
Proof.
  intros H. unfold T33. apply sum_Rle. intros n _. unfold eterm. apply Rmult_le_compat_l.
  - left. apply Rinv_0_lt_compat, INR_fact_lt_0.
  - apply pow_incr. exact H.
Qed.
Lemma T33_scale c y : 0 <= c <= 1 -> 0 <= y -> c ^ 33 * T33 y <= T33 (c * y).
Proof.
  intros Hc Hy. unfold T33. rewrite scal_sum. apply sum_Rle. intros n Hn. unfold eterm. rewrite Rpow_mult_distr.
  assert (c ^ 33 <= c ^ n) as Hp.
  { replace 33%nat with (n + (33 - n))%nat by lia. rewrite pow_add.
    assert (0 <= c ^ n) by (apply pow_le; lra). assert (c ^ (33 - n) <= 1) by (rewrite <- (pow1 (33 - n)); apply pow_incr; lra). nra. }
  assert (0 < / INR (fact n)) by (apply Rinv_0_lt_compat, INR_fact_lt_0).
  assert (0 <= y ^ n) by (apply pow_le; lra).
  assert (0 <= / INR (fact n) * y ^ n) by (apply Rmult_le_pos; lra).
  replace (/ INR (fact n) * (c ^ n * y ^ n)) with (/ INR (fact n) * y ^ n * c ^ n) by ring.
  apply Rmult_le_compat_l; assumption.
Qed.
Lemma T33_exp y : 0 <= y -> T33 y <= exp y.
Proof. intros H. apply exp_taylor_le. exact H. Qed.

Lemma general_exp_def x p : (0 <= p)%Z ->
  general_exp x p = (series_loop (2 ^ p) general_exp_coefs x x 0 / general_exp_divisor + x + 2 ^ p)%Z.
Proof.
  intros Hp. unfold general_exp. rewrite general_exp_series by exact Hp. rewrite Z.shiftl_mul_pow2 by exact Hp.
  change ONE with 1%Z. rewrite Z.mul_1_l. reflexivity.
Qed.

Lemma T33_split u : T33 u = 1 + u + (sum_f_R0 (eterm u) 33 - sum_f_R0 (eterm u) 1).
Proof.
  unfold T33. assert (sum_f_R0 (eterm u) 1 = 1 + u) as ->; [|ring].
  cbn [sum_f_R0]. unfold eterm. simpl. field.
Qed.

(* general_exp from below and above *)
Lemma quot_lower (g D x P : Z) q : (0 < D)%Z -> (0 < P)%Z ->
  IZR D * (q * (sum_f_R0 (eterm (IZR x / IZR P)) 33 - sum_f_R0 (eterm (IZR x / IZR P)) 1)) <= IZR g ->
  q * T33 (IZR x / IZR P) - 1 + (IZR P - q) * (1 + IZR x / IZR P) <= IZR (g / D + x + P).
Proof.
  intros HD HP L. pose proof (IZR_div_gt g D HD) as G. rewrite !plus_IZR. apply IZR_lt in HD, HP.
  rewrite T33_split. set (u := IZR x / IZR P) in *. set (s := sum_f_R0 (eterm u) 33 - sum_f_R0 (eterm u) 1) in *.
  assert (q * s <= IZR g / IZR D) as M.
  { apply Rmult_le_reg_l with (IZR D); [exact HD|]. replace (IZR D * (IZR g / IZR D)) with (IZR g) by (field; lra). exact L. }
  assert (IZR x = IZR P * u) as -> by (unfold u; field; lra). lra.
Qed.
Lemma quot_upper (g D x P : Z) : (0 < D)%Z -> (0 < P)%Z ->
  IZR g <= IZR 0 + IZR P * IZR D * (sum_f_R0 (eterm (IZR x / IZR P)) 33 - sum_f_R0 (eterm (IZR x / IZR P)) 1) ->
  IZR (g / D + x + P) <= IZR P * T33 (IZR x / IZR P).
Proof.
  intros HD HP S. pose proof (IZR_div_le g D HD) as G. rewrite !plus_IZR. apply IZR_lt in HD, HP.
  rewrite T33_split. set (u := IZR x / IZR P) in *. set (s := sum_f_R0 (eterm u) 33 - sum_f_R0 (eterm u) 1) in *.
  assert (IZR g / IZR D <= IZR P * s) as M.
  { apply Rmult_le_reg_l with (IZR D); [exact HD|]. replace (IZR D * (IZR g / IZR D)) with (IZR g) by (field; lra). lra. }
  assert (IZR x = IZR P * u) as -> by (unfold u; field; lra). lra.
Qed.
Lemma gdiv_pos : (0 < general_exp_divisor)%Z. Proof. reflexivity. Qed.

Lemma general_exp_lower x p : (0 <= p)%Z -> (2 * 2 ^ p <= x)%Z ->
  (IZR (2 ^ p) - 1) * T33 (IZR x / IZR (2 ^ p)) <= IZR (general_exp x p).
Proof.
  intros Hp Hx. assert (0 < 2 ^ p)%Z as P2 by (apply Z.pow_pos_nonneg; lia). assert (1 <= IZR (2 ^ p)) as P2' by (apply IZR_le; lia).
  assert (2 <= IZR x / IZR (2 ^ p)) as Hu.
  { apply Rmult_le_reg_r with (IZR (2 ^ p)); [lra|]. replace (IZR x / IZR (2 ^ p) * IZR (2 ^ p)) with (IZR x) by (field; lra).
    rewrite <- mult_IZR. apply IZR_le. exact Hx. }
  pose proof (series_loop_gen (2 ^ p) x (IZR (2 ^ p) - 1) 1 P2 ltac:(lia)) as G.
  assert (forall (k : nat) (z : Z), (0 <= z)%Z -> (IZR (2 ^ p) - 1) * (IZR x / IZR (2 ^ p)) ^ k + 1 <= IZR z ->
    (IZR (2 ^ p) - 1) * (IZR x / IZR (2 ^ p)) ^ S k + 1 <= IZR (z * x / 2 ^ p)) as St.
  { intros k z Hz Hb. left. eapply Rle_lt_trans; [|apply IZR_div_gt; exact P2]. rewrite mult_IZR.
    replace (IZR z * IZR x / IZR (2 ^ p)) with (IZR z * (IZR x / IZR (2 ^ p))) by (field; lra).
    set (u := IZR x / IZR (2 ^ p)) in *. rewrite <- tech_pow_Rmult. nra. }
  specialize (G ltac:(lra) St general_exp_coefs general_exp_divisor 1%nat x 0%Z ltac:(lia) general_exp_coefs_ok). clear St.
  rewrite pow_1 in G. set (u := IZR x / IZR (2 ^ p)) in *.
  assert (IZR x = IZR (2 ^ p) * u) as Ex by (unfold u; field; lra).
  specialize (G ltac:(rewrite Ex; lra)).
  change (1 + List.length general_exp_coefs)%nat with 33%nat in G.
  rewrite (general_exp_def x p Hp). generalize dependent (series_loop (2 ^ p) general_exp_coefs x x 0).
  pose proof gdiv_pos as HD. generalize dependent general_exp_divisor. intros D HD g G.
  pose proof (quot_lower g D x (2 ^ p) (IZR (2 ^ p) - 1) HD P2) as L. fold u in L.
  specialize (L ltac:(eapply Rle_trans; [|exact G]; right; ring)).
  eapply Rle_trans; [|exact L]. lra.
Qed.

Lemma general_exp_lower_0 x : (0 <= x)%Z -> T33 (IZR x) - 1 <= IZR (general_exp x 0).
Proof.
  intros Hx. assert (0 <= IZR x) by (apply IZR_le; exact Hx).
  pose proof (series_loop_gen (2 ^ 0) x 1 0 ltac:(reflexivity) Hx ltac:(lra)) as G.
  change (IZR (2 ^ 0)) with 1 in G. replace (IZR x / 1) with (IZR x) in G by field.
  assert (forall (k : nat) (z : Z), (0 <= z)%Z -> 1 * IZR x ^ k + 0 <= IZR z -> 1 * IZR x ^ S k + 0 <= IZR (z * x / 2 ^ 0)) as St.
  { intros k z Hz Hb. change (2 ^ 0)%Z with 1%Z. rewrite Z.div_1_r, mult_IZR, <- tech_pow_Rmult. nra. }
  specialize (G St general_exp_coefs general_exp_divisor 1%nat x 0%Z Hx general_exp_coefs_ok ltac:(rewrite pow_1; lra)). clear St.
  change (1 + List.length general_exp_coefs)%nat with 33%nat in G.
  rewrite (general_exp_def x 0 ltac:(lia)). generalize dependent (series_loop (2 ^ 0) general_exp_coefs x x 0).
  pose proof gdiv_pos as HD. generalize dependent general_exp_divisor. intros D HD g G.
  pose proof (quot_lower g D x (2 ^ 0) 1 HD ltac:(reflexivity)) as L. change (IZR (2 ^ 0)) with 1 in L. replace (IZR x / 1) with (IZR x) in L by field.
  specialize (L ltac:(eapply Rle_trans; [|exact G]; right; ring)).
  eapply Rle_trans; [|exact L]. lra.
Qed.

Lemma general_exp_upper33 x p : (0 <= p)%Z -> (0 <= x)%Z -> IZR (general_exp x p) <= IZR (2 ^ p) * T33 (IZR x / IZR (2 ^ p)).
Proof.
  intros Hp Hx. assert (0 < 2 ^ p)%Z as P2 by (apply Z.pow_pos_nonneg; lia). assert (0 < IZR (2 ^ p)) as P2' by (apply IZR_lt; exact P2).
  pose proof (series_loop_upper (2 ^ p) general_exp_coefs P2 x general_exp_divisor 1 x 0%Z Hx Hx general_exp_coefs_ok) as S.
  rewrite pow_1 in S. specialize (S ltac:(right; field; lra)). change (1 + List.length general_exp_coefs)%nat with 33%nat in S.
  rewrite (general_exp_def x p Hp). generalize dependent (series_loop (2 ^ p) general_exp_coefs x x 0).
  pose proof gdiv_pos as HD. generalize dependent general_exp_divisor. intros D HD g S. apply quot_upper; assumption.
Qed.

(* ---------- the power ---------- *)
Lemma T33_perturb d y u : 0 <= d <= / 33 -> 0 <= y -> y * (1 - d) <= u -> (1 - 33 * d) * T33 y <= T33 u.
Proof.
  intros Hd Hy Hu. assert (0 <= y * (1 - d)) as H0 by (apply Rmult_le_pos; lra).
  eapply Rle_trans; [|apply (T33_mono (y * (1 - d)) u); lra].
  rewrite Rmult_comm in H0. rewrite (Rmult_comm y). eapply Rle_trans; [|apply T33_scale; lra].
  apply Rmult_le_compat_r; [pose proof (T33_pos y Hy); lra|].
  pose proof (bernoulli d 33 ltac:(lra)) as B. replace (INR 33) with 33 in B by (simpl; lra). exact B.
Qed.

Lemma small_100 : 0 < / 2 ^ 100 <= / 1000000000000000.
Proof.
  split; [apply inv_pow2_pos|]. apply Rinv_le_contravar; [lra|]. rewrite (pow_IZR 2 100). apply IZR_le. vm_compute. discriminate.
Qed.
Lemma F_100 : F * / 2 ^ 100 = 134217728.
Proof. rewrite F_pow. change 127%nat with (100 + 27)%nat. rewrite pow_add. replace (2 ^ 27) with 134217728 by lra. field. Qed.

Lemma quot_floor x p : (0 <= p <= 127)%Z -> IZR x / F - / IZR (2 ^ p) <= IZR (x / 2 ^ (127 - p)) / IZR (2 ^ p) <= IZR x / F.
Proof.
  intros Hp. assert (0 < 2 ^ (127 - p))%Z as Q by (apply Z.pow_pos_nonneg; lia).
  assert (0 < 2 ^ p)%Z as P by (apply Z.pow_pos_nonneg; lia).
  pose proof (IZR_div_gt x _ Q) as G. pose proof (IZR_div_le x _ Q) as L.
  assert (F = IZR (2 ^ (127 - p)) * IZR (2 ^ p)) as E.
  { rewrite <- mult_IZR, <- Z.pow_add_r by lia. replace (127 - p + p)%Z with 127%Z by lia. rewrite FIXED_1_pow. reflexivity. }
  rewrite E. clear E. apply IZR_lt in Q, P. set (a := IZR (2 ^ (127 - p))) in *. set (b := IZR (2 ^ p)) in *.
  set (z := IZR (x / 2 ^ (127 - p))) in *. clearbody z.
  replace (IZR x / (a * b) - / b) with ((IZR x / a - 1) / b) by (field; lra).
  replace (IZR x / (a * b)) with (IZR x / a / b) by (field; lra). unfold Rdiv at 1 4 5.
  assert (0 <= / b) by (left; apply Rinv_0_lt_compat; exact P).
  split; apply Rmult_le_compat_r; lra.
Qed.

Lemma table32_bound : (56 * FIXED_1 + 8000000 <= table 32 /\ table 32 <= 57 * FIXED_1)%Z.
Proof. split; apply Z.leb_le; vm_compute; reflexivity. Qed.

Lemma power_taylor_lower bn bd en ed r p : (0 < bd <= bn)%Z -> (0 <= en)%Z -> (0 < ed)%Z -> (en <= 1000000 * ed)%Z ->
  power bn bd en ed = Ok (r, p) ->
  let y := IZR en / IZR ed * ln (IZR bn / IZR bd) in 16 <= y ->
  (y <= 56 -> T33 y * (1 - / 2 ^ 30) <= IZR r / IZR (2 ^ p)) /\ T33 y / 3 <= IZR r / IZR (2 ^ p).
Proof.
  intros Hb He Hd Hed E y Hy16. pose proof F_pos as HF. pose proof FIXED_1_pos.
  destruct (power_exponent _ _ _ _ _ _ Hb He Hd E) as (x & Hx & Lx0 & Ux & Hl0 & Hc). clear E.
  assert (0 < IZR ed) as Hed' by (apply IZR_lt; lia).
  assert (0 <= IZR en) as Hen by (apply IZR_le; lia).
  fold y in Lx0.
  replace (F * (IZR en / IZR ed * (ln (IZR bn / IZR bd) + 8 / F))) with (F * y + 8 * (IZR en / IZR ed)) in Ux by (unfold y; field; lra).
  set (e := IZR en / IZR ed) in *. clearbody y.
  assert (0 <= e <= 1000000) as He0.
  { unfold e. split; [apply Rmult_le_pos; [lra|]; left; apply Rinv_0_lt_compat; exact Hed'|].
    apply Rmult_le_reg_r with (IZR ed); [lra|]. replace (IZR en / IZR ed * IZR ed) with (IZR en) by (field; lra).
    rewrite <- mult_IZR. apply IZR_le. exact Hed. }
  clearbody e. pose proof (T33_pos y ltac:(lra)) as TP.
  pose proof small_100 as S100. pose proof F_100 as F100.
  assert (y * (1 - / 2 ^ 100) <= IZR x / F) as Lx.
  { apply Rmult_le_reg_r with F; [lra|]. replace (IZR x / F * F) with (IZR x) by (field; lra).
    replace (y * (1 - / 2 ^ 100) * F) with (F * y - F * / 2 ^ 100 * y) by ring. rewrite F100. lra. }
  assert (0 <= IZR x / F) as Hxf by (apply Rmult_le_pos; [apply IZR_le; exact Hx|left; apply Rinv_0_lt_compat; exact HF]).
  replace (/ 2 ^ 30) with (/ 1073741824) by (f_equal; lra).
  remember (/ 2 ^ 100) as d eqn:Ed. clear Ed.
  destruct Hc as [(Hc & -> & ->)|(Hc & Hp & -> & Hp32)].
  - pose proof (optimal_exp_lower x (conj Hx Hc)) as OE. rewrite <- FIXED_1_pow.
    assert (/ 2 ^ 115 <= / 1000000000000000) as Hq.
    { apply Rinv_le_contravar; [lra|]. rewrite (pow_IZR 2 115). apply IZR_le. vm_compute. discriminate. }
    pose proof (inv_pow2_pos 115) as P115. remember (/ 2 ^ 115) as q eqn:Eq. clear Eq.
    pose proof (T33_perturb d y (IZR x / F) ltac:(lra) ltac:(lra) Lx) as TT.
    pose proof (T33_exp (IZR x / F) Hxf) as TE.
    assert (exp (IZR x / F) * (1 - q) <= IZR (optimal_exp x) / F) as OE'.
    { apply Rmult_le_reg_r with F; [lra|]. replace (IZR (optimal_exp x) / F * F) with (IZR (optimal_exp x)) by (field; lra). lra. }
    assert ((1 - 33 * d) * T33 y * (1 - q) <= IZR (optimal_exp x) / F) as M.
    { eapply Rle_trans; [|exact OE']. apply Rmult_le_compat_r; lra. }
    assert (1 - / 1073741824 <= (1 - 33 * d) * (1 - q)) as N by nra.
    split; [intros _|]; (eapply Rle_trans; [|exact M]).
    + replace ((1 - 33 * d) * T33 y * (1 - q)) with (T33 y * ((1 - 33 * d) * (1 - q))) by ring. apply Rmult_le_compat_l; lra.
    + replace ((1 - 33 * d) * T33 y * (1 - q)) with (T33 y * ((1 - 33 * d) * (1 - q))) by ring. unfold Rdiv. apply Rmult_le_compat_l; lra.
  - assert (0 < 2 ^ p)%Z as P2 by (apply Z.pow_pos_nonneg; lia). assert (0 < IZR (2 ^ p)) as P2' by (apply IZR_lt; exact P2).
    assert (16 * 2 ^ p <= x / 2 ^ (127 - p))%Z as G.
    { apply Z.div_le_lower_bound; [apply Z.pow_pos_nonneg; lia|]. rewrite OEM_eq, FIXED_1_pow in Hc.
      replace (2 ^ (127 - p) * (16 * 2 ^ p))%Z with (16 * (2 ^ (127 - p) * 2 ^ p))%Z by ring.
      rewrite <- Z.pow_add_r by lia. replace (127 - p + p)%Z with 127%Z by lia. exact Hc. }
    pose proof (quot_floor x p Hp) as [QL QU].
    destruct Hp32 as [[-> Ht]|Hp32].
    + pose proof table32_bound as [TB _].
      assert (56 < y) as Hy56.
      { assert (56 * FIXED_1 + 8000000 < x)%Z as Hlt by lia. apply IZR_lt in Hlt. rewrite plus_IZR, mult_IZR in Hlt.
        apply Rmult_lt_reg_l with F; [lra|]. lra. }
      split; [lra|].
      change (IZR (2 ^ 0)) with 1 in *. change (127 - 0)%Z with 127%Z in *.
      pose proof (general_exp_lower_0 (x / 2 ^ 127) ltac:(lia)) as GL.
      clear G Hc. revert GL. generalize (general_exp (x / 2 ^ 127) 0). intros g GL.
      replace (IZR (x / 2 ^ 127) / 1) with (IZR (x / 2 ^ 127)) in QL by field. rewrite Rinv_1 in QL.
      generalize dependent (x / 2 ^ 127)%Z. intros u QL QU GL. replace (IZR g / 1) with (IZR g) by field.
      pose proof (T33_perturb (d + / 56) y (IZR u) ltac:(lra) ltac:(lra) ltac:(nra)) as TT.
      assert (2 / 5 * T33 y <= (1 - 33 * (d + / 56)) * T33 y) as K by (apply Rmult_le_compat_r; lra). lra.
    + pose proof (general_exp_lower (x / 2 ^ (127 - p)) p (proj1 Hp) ltac:(lia)) as GL.
      clear G Hc. revert GL. generalize (general_exp (x / 2 ^ (127 - p)) p). intros g GL.
      generalize dependent (x / 2 ^ (127 - p))%Z. intros u QL QU GL.
      assert (4294967296 <= IZR (2 ^ p)) as P32.
      { apply IZR_le. change 4294967296%Z with (2 ^ 32)%Z. apply Z.pow_le_mono_r; lia. }
      set (P := IZR (2 ^ p)) in *. clearbody P.
      assert (/ P <= / 4294967296) as IP by (apply Rinv_le_contravar; lra).
      pose proof (T33_perturb (d + / 68719476736) y (IZR u / P) ltac:(lra) ltac:(lra) ltac:(nra)) as TT.
      assert (T33 y * (1 - / 1073741824) <= IZR g / P) as M.
      { apply Rmult_le_reg_r with P; [lra|]. replace (IZR g / P * P) with (IZR g) by (field; lra).
        eapply Rle_trans; [|exact GL]. apply Rle_trans with ((P - 1) * ((1 - 33 * (d + / 68719476736)) * T33 y)); [|apply Rmult_le_compat_l; lra].
        replace ((P - 1) * ((1 - 33 * (d + / 68719476736)) * T33 y)) with (T33 y * ((P - 1) * (1 - 33 * (d + / 68719476736)))) by ring.
        rewrite Rmult_assoc. apply Rmult_le_compat_l; [lra|].
        assert (33 * (d + / 68719476736) <= 5 / 2 * / 4294967296) as K by lra. nra. }
      split; [intros _; exact M|]. eapply Rle_trans; [|exact M]. unfold Rdiv. apply Rmult_le_compat_l; lra.
Qed.

Lemma power_taylor_upper bn bd en ed r p : (0 < bd <= bn)%Z -> (0 <= en)%Z -> (0 < ed)%Z -> (en <= 1000000 * ed)%Z ->
  power bn bd en ed = Ok (r, p) ->
  17 <= IZR en / IZR ed * ln (IZR bn / IZR bd) ->
  IZR r / IZR (2 ^ p) <= T33 (IZR en / IZR ed * (ln (IZR bn / IZR bd) + 8 / F)).
Proof.
  intros Hb He Hd Hed E Hy17. pose proof F_pos as HF. pose proof FIXED_1_pos.
  destruct (power_exponent _ _ _ _ _ _ Hb He Hd E) as (x & Hx & Lx0 & Ux & Hl0 & Hc). clear E.
  assert (0 < IZR ed) as Hed' by (apply IZR_lt; lia).
  assert (0 <= IZR en) as Hen by (apply IZR_le; lia).
  set (y := IZR en / IZR ed * ln (IZR bn / IZR bd)) in *.
  assert (0 <= IZR en / IZR ed <= 1000000) as He0.
  { split; [apply Rmult_le_pos; [lra|]; left; apply Rinv_0_lt_compat; exact Hed'|].
    apply Rmult_le_reg_r with (IZR ed); [lra|]. replace (IZR en / IZR ed * IZR ed) with (IZR en) by (field; lra).
    rewrite <- mult_IZR. apply IZR_le. exact Hed. }
  assert (1000000000000 <= F) as HF3 by (apply IZR_le; vm_compute; discriminate).
  destruct Hc as [(Hc & _)|(Hc & Hp & -> & _)].
  - exfalso. rewrite OEM_eq in Hc. apply IZR_lt in Hc. rewrite mult_IZR in Hc.
    set (e := IZR en / IZR ed) in *. clearbody e y. nra.
  - assert (0 < 2 ^ p)%Z as P2 by (apply Z.pow_pos_nonneg; lia). assert (0 < IZR (2 ^ p)) as P2' by (apply IZR_lt; exact P2).
    pose proof (quot_floor x p Hp) as [_ QU].
    assert (0 <= x / 2 ^ (127 - p))%Z as Hu by (apply Z.div_pos; [lia|apply Z.pow_pos_nonneg; lia]).
    pose proof (general_exp_upper33 (x / 2 ^ (127 - p)) p (proj1 Hp) Hu) as GL.
    clear Hc. revert GL. generalize (general_exp (x / 2 ^ (127 - p)) p). intros g GL.
    generalize dependent (x / 2 ^ (127 - p))%Z. intros u QU Hu GL.
    apply Rmult_le_reg_l with (IZR (2 ^ p)); [lra|]. replace (IZR (2 ^ p) * (IZR g / IZR (2 ^ p))) with (IZR g) by (field; lra).
    eapply Rle_trans; [exact GL|]. apply Rmult_le_compat_l; [lra|]. apply T33_mono.
    split; [apply Rmult_le_pos; [apply IZR_le; exact Hu|left; apply Rinv_0_lt_compat; exact P2']|].
    eapply Rle_trans; [exact QU|]. apply Rmult_le_reg_l with F; [lra|]. replace (F * (IZR x / F)) with (IZR x) by (field; lra). exact Ux.
Qed.

(* ---------- purchases ---------- *)
Lemma purchase_large S B w d r : (0 < d)%Z -> (w < 1000000)%Z -> calculate_purchase_return S B w d = Ok r ->
  let y := IZR w / 1000000 * ln (1 + IZR d / IZR B) in
  (16 <= y <= 56 -> IZR S * (T33 y * (1 - / 2 ^ 30)) - IZR S - 1 <= IZR r) /\
  (16 <= y -> IZR S * (T33 y / 3) - IZR S - 1 <= IZR r) /\
  (17 <= y -> IZR r <= IZR S * T33 (y + 8 / F) - IZR S).
Proof.
  intros Hd Hw1 E y. destruct (purchase_domain S B w d r ltac:(lia) E) as (HS & HB & Hw & Hc).
  destruct (purchase_valid S B w d HS HB Hw ltac:(lia) Hc) as (r' & E' & Hr & _ & _ & P2).
  rewrite E in E'. apply Ok_inj in E'. subst r'.
  destruct (P2 Hd Hw1) as (rs & p & Epow & Hp & Hrs & Er).
  assert (0 < IZR S) as HS' by (apply IZR_lt; lia).
  assert (0 < IZR B) as HB' by (apply IZR_lt; lia).
  pose proof F_pos as HF.
  assert (IZR (d + B) / IZR B = 1 + IZR d / IZR B) as EB by (rewrite plus_IZR; field; lra).
  assert (0 < 2 ^ p)%Z as P2z by (apply Z.pow_pos_nonneg; lia).
  assert (0 < IZR (2 ^ p)) as P2p by (apply IZR_lt; exact P2z).
  assert (IZR S * (IZR rs / IZR (2 ^ p)) - IZR S - 1 <= IZR r <= IZR S * (IZR rs / IZR (2 ^ p)) - IZR S) as [L U].
  { rewrite Er, minus_IZR. pose proof (IZR_div_gt (S * rs) (2 ^ p) P2z) as Q. pose proof (IZR_div_le (S * rs) (2 ^ p) P2z) as Q'.
    rewrite mult_IZR in Q, Q'. unfold Rdiv in *. lra. }
  assert (0 < B <= d + B)%Z as H1 by lia. assert (0 <= w)%Z as H2 by lia. assert (w <= 1000000 * 1000000)%Z as H3 by lia. assert (0 < 1000000)%Z as H4 by lia.
  pose proof (power_taylor_lower _ _ _ _ _ _ H1 H2 H4 H3 Epow) as A.
  pose proof (power_taylor_upper _ _ _ _ _ _ H1 H2 H4 H3 Epow) as A'.
  rewrite EB in A, A'. cbv zeta in A. fold y in A, A'.
  split; [|split].
  - intros Hy. destruct (A ltac:(lra)) as [A1 _]. specialize (A1 ltac:(lra)). eapply Rle_trans; [|exact L].
    unfold Rminus. apply Rplus_le_compat_r, Rplus_le_compat_r, Rmult_le_compat_l; lra.
  - intros Hy. destruct (A ltac:(lra)) as [_ A2]. eapply Rle_trans; [|exact L].
    unfold Rminus. apply Rplus_le_compat_r, Rplus_le_compat_r, Rmult_le_compat_l; lra.
  - intros Hy. specialize (A' Hy). eapply Rle_trans; [exact U|]. unfold Rminus. apply Rplus_le_compat_r, Rmult_le_compat_l; [lra|].
    eapply Rle_trans; [exact A'|]. apply T33_mono.
    assert (0 <= IZR w) by (apply IZR_le; lia). assert (IZR w <= 1000000) by (apply IZR_le; lia).
    replace (IZR w / 1000000 * (ln (1 + IZR d / IZR B) + 8 / F)) with (y + IZR w / 1000000 * (8 / F)) by (unfold y; ring).
    assert (0 <= 8 / F) by (apply Rmult_le_pos; [lra|left; apply Rinv_0_lt_compat; exact HF]).
    assert (0 <= IZR w / 1000000 <= 1) by (unfold Rdiv; lra). split; [apply Rplus_le_le_0_compat; nra|nra].
Qed.

(* a deposit of 2^100 - 1 times the connector balance: the supply should grow by the factor 2^90 *)
Lemma huge_deposit : exists r, calculate_purchase_return (10 ^ 24) (2 ^ 20) 900000 ((2 ^ 100 - 1) * 2 ^ 20) = Ok r /\
  IZR r < / 20000 * (IZR (10 ^ 24) * (Rpower (1 + IZR ((2 ^ 100 - 1) * 2 ^ 20) / IZR (2 ^ 20)) (IZR 900000 / 1000000) - 1)).
Proof.
  assert (Rpower (1 + IZR ((2 ^ 100 - 1) * 2 ^ 20) / IZR (2 ^ 20)) (IZR 900000 / 1000000) = IZR (2 ^ 90)) as ->.
  { replace (1 + IZR ((2 ^ 100 - 1) * 2 ^ 20) / IZR (2 ^ 20)) with (2 ^ 100).
    - rewrite <- (Rpower_pow 100 2), Rpower_mult by lra. replace (INR 100 * (900000 / 1000000)) with (INR 90) by (simpl; lra).
      rewrite Rpower_pow by lra. rewrite (pow_IZR 2 90). reflexivity.
    - rewrite mult_IZR, minus_IZR. rewrite (pow_IZR 2 100). change (Z.of_nat 100) with 100%Z.
      field. apply not_0_IZR. discriminate. }
  destruct (calculate_purchase_return (10 ^ 24) (2 ^ 20) 900000 ((2 ^ 100 - 1) * 2 ^ 20)) as [r|e] eqn:E.
  - exists r. split; [reflexivity|].
    assert (20000 * r < 10 ^ 24 * (2 ^ 90 - 1))%Z as L.
    { assert (calculate_purchase_return (10 ^ 24) (2 ^ 20) 900000 ((2 ^ 100 - 1) * 2 ^ 20) = Ok r) as E' by exact E.
      vm_compute in E'. apply Ok_inj in E'. subst r. apply Z.ltb_lt. vm_compute. reflexivity. }
    apply IZR_lt in L. rewrite !mult_IZR, minus_IZR in L. lra.
  - exfalso. vm_compute in E. discriminate.
Qed.

Lemma ln2_bounds : / 2 <= ln 2 <= 3 / 4.
Proof.
  split.
  - apply Rmult_le_reg_l with 2; [lra|]. replace (2 * / 2) with 1 by field. rewrite <- (ln_exp 1).
    replace (2 * ln 2) with (ln 4) by (replace 4 with (2 * 2) by lra; rewrite ln_mult by lra; lra).
    apply ln_le_compat; [apply exp_pos|]. pose proof exp_le_3. lra.
  - rewrite <- (ln_exp (3 / 4)). apply ln_le_compat; [lra|]. pose proof (exp_taylor_le (3 / 4) 2 ltac:(lra)) as T.
    cbn [sum_f_R0] in T. unfold eterm in T. simpl in T. lra.
Qed.

Lemma large_example : exists r p, power (2 ^ 70) 1 1 1 = Ok (r, p) /\ 17 <= IZR 1 / IZR 1 * ln (IZR (2 ^ 70) / IZR 1) <= 56.
Proof.
  destruct (power (2 ^ 70) 1 1 1) as [[r p]|e] eqn:E.
  - exists r, p. split; [reflexivity|]. replace (IZR (2 ^ 70) / IZR 1) with (2 ^ 70).
    + rewrite <- Rpower_pow, ln_Rpower by lra. replace (INR 70) with 70 by (simpl; lra). pose proof ln2_bounds. lra.
    + rewrite (pow_IZR 2 70). change (Z.of_nat 70) with 70%Z. field.
  - exfalso. vm_compute in E. discriminate.
Qed.
