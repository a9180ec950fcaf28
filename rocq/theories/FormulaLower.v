(* The fixed-point functions are close to real exp, ln and powers from below. *)
From Coq Require Import ZArith List Lia Bool Reals Lra String.
From Verif Require Import Res FormulaConsts FormulaModel FormulaInt FormulaQuotes RealTools FormulaReal.
Import ListNotations.
Local Open Scope R_scope.

(* ---------- series ---------- *)

Lemma ln_le_lsum m u : 0 <= u -> ln (1 + u) <= lsum m u + u ^ (2 * m + 1) / INR (2 * m + 1).
Proof.
  assert (0 < INR (2 * m + 1)) as Hm by (apply lt_0_INR; lia).
  intros [Hu|<-]; [|rewrite lsum_0, Rplus_0_r, ln_1, pow_i by lia; unfold Rdiv; lra].
  pose (g := fun x => lsum m x + x ^ (2 * m + 1) / INR (2 * m + 1) - ln (1 + x)).
  pose (g' := fun x => dsum m x + x ^ (2 * m) - / (1 + x)).
  assert (forall c, 0 <= c <= u -> derivable_pt_lim g c (g' c)) as D.
  { intros c Hc. unfold g, g'. apply derivable_pt_lim_minus; [apply derivable_pt_lim_plus; [apply lsum_derive|]|].
    - pose proof (derivable_pt_lim_scal _ (/ INR (2 * m + 1)) c _ (derivable_pt_lim_pow c (2 * m + 1))) as D.
      replace (/ INR (2 * m + 1) * (INR (2 * m + 1) * c ^ Init.Nat.pred (2 * m + 1))) with (c ^ (2 * m)) in D.
      + eapply derivable_pt_lim_ext; [|exact D]. intros z. unfold mult_real_fct. unfold Rdiv. ring.
      + replace (Init.Nat.pred (2 * m + 1)) with (2 * m)%nat by lia. field. lra.
    - assert (derivable_pt_lim (fun x => ln (1 + x)) c (/ (1 + c) * (0 + 1))) as L.
      { apply (derivable_pt_lim_comp (fun x => 1 + x) ln c).
        - apply (derivable_pt_lim_plus (fct_cte 1) id c); [apply derivable_pt_lim_const|apply derivable_pt_lim_id].
        - apply derivable_pt_lim_ln. lra. }
      replace (/ (1 + c) * (0 + 1)) with (/ (1 + c)) in L by ring. exact L. }
  destruct (MVT_cor2 g g' 0 u Hu D) as (c & Ec & Hc).
  assert (0 <= g' c) as Hg.
  { unfold g'. pose proof (dsum_closed m c) as E.
    apply Rmult_le_reg_r with (1 + c); [lra|].
    rewrite Rmult_minus_distr_r, Rinv_l by lra. rewrite Rmult_plus_distr_r, E, Rmult_0_l.
    assert (0 <= c ^ (2 * m)) by (apply pow_le; lra). nra. }
  unfold g in Ec at 1 2. rewrite lsum_0, Rplus_0_r, ln_1 in Ec. rewrite pow_i in Ec by lia. unfold Rdiv in Ec at 2. nra.
Qed.

(* the logarithm of a quantity truncated to an integer of at least FIXED_1 *)
Lemma ln_trunc (a : R) (n : Z) : (FIXED_1 <= n)%Z -> 0 < a -> a <= IZR n + 1 -> ln a <= ln (IZR n) + 1 / F.
Proof.
  intros Hn Ha L. pose proof F_pos as HF. assert (F <= IZR n) as Hn' by (apply IZR_le; exact Hn).
  assert (ln (1 + 1 / F) <= 1 / F) as X.
  { rewrite <- (ln_exp (1 / F)) at 2. assert (0 < 1 / F) by (apply Rdiv_lt_0_compat; lra).
    apply ln_le_compat; [lra|]. left. apply exp_ineq1. lra. }
  eapply Rle_trans; [apply ln_le_compat; [exact Ha|]|].
  - instantiate (1 := IZR n * (1 + 1 / F)). eapply Rle_trans; [exact L|].
    rewrite Rmult_plus_distr_l, Rmult_1_r. apply Rplus_le_compat_l.
    apply Rmult_le_reg_r with F; [lra|]. replace (IZR n * (1 / F) * F) with (IZR n) by (field; lra). lra.
  - rewrite ln_mult; [lra|lra|]. assert (0 < 1 / F) by (apply Rdiv_lt_0_compat; lra). lra.
Qed.

(* ---------- optimal_exp ---------- *)
Lemma series_loop_lower P l e : (0 < P)%Z -> 0 <= e -> forall y D k z acc, (0 <= y)%Z -> (0 <= z)%Z -> coefs_ok l (S k) D = true ->
  e * (IZR y / IZR P) + 1 <= e ->
  IZR P * (IZR y / IZR P) ^ k - e <= IZR z ->
  IZR acc + IZR P * IZR D * (sum_f_R0 (eterm (IZR y / IZR P)) (k + List.length l) - sum_f_R0 (eterm (IZR y / IZR P)) k)
    - e * IZR (fold_right Z.add 0%Z l)
  <= IZR (series_loop P l y z acc).
Proof.
  intros HP He y D. assert (0 < IZR P) as HP' by (apply IZR_lt; exact HP).
  induction l as [|c l IH]; cbn [coefs_ok series_loop fold_right]; intros k z acc Hy Hz Hc Hu1 Hb.
  - cbn [List.length]. rewrite Nat.add_0_r. lra.
  - rewrite !andb_true_iff in Hc. destruct Hc as [[H1 H2] H3].
    apply Z.eqb_eq in H1. apply Z.leb_le in H3.
    set (u := IZR y / IZR P) in *.
    assert (0 <= IZR y) by (apply IZR_le; exact Hy).
    assert (0 <= u) as Hu.
    { unfold u. apply Rmult_le_pos; [assumption|]. left. apply Rinv_0_lt_compat. exact HP'. }
    assert (0 <= z * y / P)%Z as Hz' by (apply Z.div_pos; nia).
    assert (IZR P * u ^ (S k) - e <= IZR (z * y / P)) as Hb'.
    { left. eapply Rle_lt_trans; [|apply IZR_div_gt; exact HP]. rewrite mult_IZR.
      replace (IZR z * IZR y / IZR P) with (IZR z * u) by (unfold u; field; lra).
      cbn [pow]. nra. }
    specialize (IH (S k) (z * y / P)%Z (acc + z * y / P * c)%Z Hy Hz' H2 Hu1 Hb').
    eapply Rle_trans; [|exact IH].
    replace (S k + List.length l)%nat with (k + S (List.length l))%nat by lia.
    cbn [sum_f_R0 List.length]. rewrite !plus_IZR, mult_IZR.
    assert (IZR P * IZR D * eterm u (S k) - e * IZR c <= IZR (z * y / P) * IZR c) as Hterm.
    { assert (0 <= IZR c) by (apply IZR_le; exact H3).
      apply Rle_trans with ((IZR P * u ^ S k - e) * IZR c); [|apply Rmult_le_compat_r; assumption].
      unfold eterm. rewrite <- H1, mult_IZR, zfact_fact.
      pose proof (INR_fact_neq_0 (S k)). right. field; assumption. }
    lra.
Qed.

Lemma series_lower P l D y e : (0 < P)%Z -> (0 <= y)%Z -> (0 < D)%Z -> coefs_ok l 2 D = true -> (fold_right Z.add 0%Z l <= D)%Z ->
  0 <= e -> e * (IZR y / IZR P) + 1 <= e ->
  IZR P * sum_f_R0 (eterm (IZR y / IZR P)) (1 + List.length l) - e - 1 <= IZR (series_loop P l y y 0 / D + y + P).
Proof.
  intros HP Hy HD Hc Hsum He Hu1.
  assert (0 < IZR P) as HP' by (apply IZR_lt; exact HP).
  assert (0 < IZR D) as HD' by (apply IZR_lt; exact HD).
  assert (0 <= IZR y) by (apply IZR_le; exact Hy).
  pose proof (series_loop_lower P l e HP He y D 1 y 0%Z Hy Hy Hc Hu1) as S.
  rewrite pow_1 in S. specialize (S ltac:(replace (IZR P * (IZR y / IZR P)) with (IZR y) by (field; lra); lra)).
  set (u := IZR y / IZR P) in *.
  rewrite !plus_IZR.
  pose proof (IZR_div_gt (series_loop P l y y 0) D HD) as Q.
  apply IZR_le in Hsum.
  assert (IZR P * (sum_f_R0 (eterm u) (1 + List.length l) - sum_f_R0 (eterm u) 1) - e <= IZR (series_loop P l y y 0) / IZR D) as S2.
  { apply Rmult_le_reg_r with (IZR D); [assumption|]. unfold Rdiv.
    rewrite Rmult_assoc, Rinv_l, Rmult_1_r by lra. nra. }
  assert (sum_f_R0 (eterm u) 1 = 1 + u) as E1.
  { cbn [sum_f_R0]. unfold eterm. simpl. field. }
  rewrite E1 in S2.
  assert (IZR y = IZR P * u) as Ey by (unfold u; field; lra).
  rewrite Ey. lra.
Qed.

(* n/d >= e^(mask/F) (1 - 2^-119) *)
Definition exp_hi_cert2 (t : Z * Z * Z) : bool :=
  let '(m, n, d) := t in let k := (m / 2 ^ 124)%Z in
  ((m =? k * 2 ^ 124) && (0 <=? k) && (0 <? d))%Z && exp_lt_cert k 8 160 100 (n * 2 ^ 119) (d * (2 ^ 119 - 1)).
Lemma exp_hi_certs2 : forallb exp_hi_cert2 optimal_exp_hi = true.
Proof. vm_cast_no_check (eq_refl true). Qed.

Lemma exp_hi_bound2 m n d : exp_hi_cert2 (m, n, d) = true -> (0 < d)%Z /\ (0 <= m)%Z /\ exp (IZR m / F) * (1 - / 2 ^ 119) <= IZR n / IZR d.
Proof.
  unfold exp_hi_cert2. cbv zeta. set (k := (m / 2 ^ 124)%Z). intros H. rewrite !andb_true_iff in H. destruct H as [[[H1 H2] H3] H4].
  apply Z.eqb_eq in H1. apply Z.leb_le in H2. apply Z.ltb_lt in H3. split; [assumption|]. split; [lia|].
  apply exp_lt in H4. assert (IZR m / F = IZR k / IZR 8) as ->.
  { rewrite H1, mult_IZR. replace F with (8 * IZR (2 ^ 124)); [field; apply not_0_IZR; discriminate|].
    rewrite <- mult_IZR. reflexivity. }
  set (e := exp (IZR k / IZR 8)) in *. clearbody e. rewrite !mult_IZR, minus_IZR in H4. replace (IZR (2 ^ 119)) with (2 ^ 119) in H4 by (rewrite (pow_IZR 2 119); reflexivity).
  assert (1 < 2 ^ 119) as HP by (apply Rlt_pow_R1; [lra|lia]). assert (0 < IZR d) by (apply IZR_lt; exact H3).
  remember (2 ^ 119) as q eqn:Eq. clear Eq.
  apply Rmult_le_reg_r with (IZR d * q); [nra|]. replace (IZR n / IZR d * (IZR d * q)) with (IZR n * q) by (field; lra).
  apply Rmult_lt_compat_r with (r := IZR d * (q - 1)) in H4; [|nra].
  replace (IZR n * q / (IZR d * (q - 1)) * (IZR d * (q - 1))) with (IZR n * q) in H4 by (field; lra).
  replace (e * (1 - / q) * (IZR d * q)) with (e * (IZR d * (q - 1))) by (field; lra). lra.
Qed.

Lemma exp_hi_lower l : forallb exp_hi_cert2 l = true -> forallb (fun '(m, n, d) => (0 <? d) && (d <=? n))%Z l = true -> forall x acc, (FIXED_1 <= acc)%Z ->
  IZR acc * exp (IZR (bits_sum l x) / F) * (1 - / 2 ^ 118) ^ List.length l <= IZR (optimal_exp_hi_loop l x acc).
Proof.
  pose proof F_pos as HF.
  assert (0 < / 2 ^ 118 < 1) as Q118.
  { split; [apply Rinv_0_lt_compat, pow_lt; lra|]. rewrite <- Rinv_1. apply Rinv_lt_contravar; [rewrite Rmult_1_l; apply pow_lt; lra|apply Rlt_pow_R1; [lra|lia]]. }
  remember (1 - / 2 ^ 118) as q eqn:Eq. assert (0 < q < 1) as Hq by lra. clear Q118.
  induction l as [|[[m n] d] l IH]; cbn [forallb optimal_exp_hi_loop bits_sum]; intros H Hge x acc Ha.
  - unfold Rdiv. rewrite Rmult_0_l, exp_0. simpl. lra.
  - apply andb_true_iff in H. destruct H as [H1 H2]. apply andb_true_iff in Hge. destruct Hge as [G1 G2].
    apply andb_true_iff in G1. destruct G1 as [_ G1]. apply Z.leb_le in G1.
    apply exp_hi_bound2 in H1. destruct H1 as (Hd & Hm & H1).
    assert (F <= IZR acc) as Ha' by (apply IZR_le; exact Ha).
    assert (0 <= q ^ List.length l) as Pl by (apply pow_le; lra).
    change (List.length ((m, n, d) :: l)) with (S (List.length l)). rewrite <- tech_pow_Rmult.
    destruct (Z.land x m =? 0)%Z; cbn [negb].
    + rewrite Z.add_0_l. eapply Rle_trans; [|apply IH; assumption].
      pose proof (exp_pos (IZR (bits_sum l x) / F)).
      assert (0 <= IZR acc * exp (IZR (bits_sum l x) / F)) by (apply Rmult_le_pos; lra).
      apply Rmult_le_compat_l; [assumption|]. nra.
    + assert (FIXED_1 <= acc * n / d)%Z as Hacc' by (apply Z.div_le_lower_bound; [lia|]; pose proof FIXED_1_pos; nia).
      eapply Rle_trans; [|apply IH; [assumption|assumption|exact Hacc']].
      rewrite plus_IZR. replace ((IZR m + IZR (bits_sum l x)) / F) with (IZR m / F + IZR (bits_sum l x) / F) by (field; lra).
      rewrite exp_plus. pose proof (exp_pos (IZR (bits_sum l x) / F)) as PB. pose proof (exp_pos (IZR m / F)) as PM.
      assert (IZR acc * exp (IZR m / F) * q <= IZR (acc * n / d)) as Hstep.
      { pose proof (IZR_div_gt (acc * n) d Hd) as Q. rewrite mult_IZR in Q.
        assert (0 < IZR d) as Hd' by (apply IZR_lt; exact Hd).
        replace (IZR acc * IZR n / IZR d) with (IZR acc * (IZR n / IZR d)) in Q by (field; lra).
        assert (IZR acc * (exp (IZR m / F) * (1 - / 2 ^ 119)) <= IZR acc * (IZR n / IZR d)) as Q2 by (apply Rmult_le_compat_l; lra).
        assert (1 <= exp (IZR m / F)) as GE.
        { rewrite <- exp_0. apply exp_le_compat. apply Rmult_le_pos; [apply IZR_le; exact Hm|]. left. apply Rinv_0_lt_compat. exact HF. }
        assert (/ 2 ^ 118 = 2 * / 2 ^ 119) as E2 by (change 119%nat with (118 + 1)%nat; rewrite pow_add; simpl (2 ^ 1); rewrite Rinv_mult; lra).
        assert (1 <= IZR acc * (exp (IZR m / F) * / 2 ^ 119)) as One.
        { assert (1 <= IZR acc * / 2 ^ 119) as A1.
          { apply Rmult_le_reg_r with (2 ^ 119); [apply pow_lt; lra|]. rewrite Rmult_assoc, Rinv_l, Rmult_1_r, Rmult_1_l by (apply pow_nonzero; lra).
            eapply Rle_trans; [|exact Ha']. rewrite F_pow. apply Rle_pow; [lra|lia]. }
          replace (IZR acc * (exp (IZR m / F) * / 2 ^ 119)) with (IZR acc * / 2 ^ 119 * exp (IZR m / F)) by ring. nra. }
        rewrite Eq, E2. lra. }
      set (P := q ^ List.length l) in *.
      replace (IZR acc * (exp (IZR m / F) * exp (IZR (bits_sum l x) / F)) * (q * P)) with ((IZR acc * exp (IZR m / F) * q) * (exp (IZR (bits_sum l x) / F) * P)) by ring.
      rewrite (Rmult_assoc (IZR (acc * n / d))).
      apply Rmult_le_compat_r; [|exact Hstep]. apply Rmult_le_pos; lra.
Qed.

Lemma bernoulli x n : 0 <= x <= 1 -> 1 - INR n * x <= (1 - x) ^ n.
Proof.
  intros H. induction n as [|n IH]; [simpl; lra|]. rewrite S_INR, <- tech_pow_Rmult.
  assert (0 <= INR n) by apply pos_INR. assert (0 <= (1 - x) ^ n) by (apply pow_le; lra).
  assert (x * (INR n * x) >= 0) by (apply Rle_ge, Rmult_le_pos; [lra|apply Rmult_le_pos; lra]).
  assert ((1 - x) * (1 - INR n * x) <= (1 - x) * (1 - x) ^ n) by (apply Rmult_le_compat_l; lra). lra.
Qed.

Lemma inv_pow2_pos n : 0 < / 2 ^ n. Proof. apply Rinv_0_lt_compat, pow_lt. lra. Qed.
Lemma inv_pow2_shift n k : / 2 ^ n = 2 ^ k * / 2 ^ (n + k).
Proof. rewrite pow_add. pose proof (pow_lt 2 n ltac:(lra)). pose proof (pow_lt 2 k ltac:(lra)). field. split; lra. Qed.

Lemma optimal_exp_lo_lower y : (0 <= y < optimal_exp_mod)%Z ->
  F * exp (IZR y / F) - 4 <= IZR (optimal_exp_lo_loop optimal_exp_coefs y y 0 / optimal_exp_divisor + y + FIXED_1).
Proof.
  intros H. pose proof F_pos as HF.
  assert (0 <= IZR y / F <= / 8) as Hu.
  { split; [apply Rmult_le_pos; [apply IZR_le; lia|left; apply Rinv_0_lt_compat; exact HF]|].
    apply Rmult_le_reg_r with F; [lra|]. replace (IZR y / F * F) with (IZR y) by (field; lra).
    assert (8 * y <= FIXED_1)%Z as L. { change FIXED_1 with (8 * optimal_exp_mod)%Z. lia. }
    apply IZR_le in L. rewrite mult_IZR in L. lra. }
  rewrite optimal_exp_series.
  assert (8 / 7 * (IZR y / F) + 1 <= 8 / 7) as He by lra.
  pose proof (series_lower FIXED_1 optimal_exp_coefs optimal_exp_divisor y (8 / 7) eq_refl (proj1 H) eq_refl optimal_exp_coefs_ok
    ltac:(vm_compute; discriminate) ltac:(lra) He) as S.
  set (u := IZR y / F) in *. change (1 + List.length optimal_exp_coefs)%nat with 20%nat in S.
  assert (INR (20 + 2) = 22) as E22 by (simpl; lra).
  pose proof (taylor_tail u 20 (proj1 Hu) ltac:(rewrite E22; lra)) as T.
  assert (F * (2 * eterm u 21) <= 1) as Tail.
  { unfold eterm. assert (u ^ 21 <= (/ 8) ^ 21) as P by (apply pow_incr; exact Hu).
    assert (IZR (zfact 21) = INR (fact 21)) as Ef by apply zfact_fact.
    rewrite <- Ef. assert (0 < IZR (zfact 21)) as P21 by (apply IZR_lt; reflexivity).
    apply Rmult_le_reg_r with (IZR (zfact 21)); [assumption|].
    replace (F * (2 * (/ IZR (zfact 21) * u ^ 21)) * IZR (zfact 21)) with (F * 2 * u ^ 21) by (field; lra).
    apply Rle_trans with (F * 2 * (/ 8) ^ 21); [apply Rmult_le_compat_l; lra|].
    rewrite pow_inv. apply Rmult_le_reg_r with (8 ^ 21); [apply pow_lt; lra|].
    rewrite Rmult_assoc, Rinv_l by (apply pow_nonzero; lra). rewrite Rmult_1_r, Rmult_1_l.
    rewrite (pow_IZR 8 21), <- !mult_IZR. apply IZR_le. vm_compute. discriminate. }
  assert (F * exp u <= F * (sum_f_R0 (eterm u) 20 + 2 * eterm u 21)) as M by (apply Rmult_le_compat_l; lra).
  rewrite Rmult_plus_distr_l in M. lra.
Qed.

Lemma optimal_exp_lower x : (0 <= x < OPT_EXP_MAX_VAL)%Z -> F * exp (IZR x / F) * (1 - / 2 ^ 115) <= IZR (optimal_exp x).
Proof.
  intros H. unfold optimal_exp. cbv zeta. pose proof F_pos as HF.
  assert (0 <= x mod optimal_exp_mod < optimal_exp_mod)%Z as Hy by (apply Z.mod_pos_bound; reflexivity).
  pose proof (optimal_exp_lo_lower _ Hy) as S. set (y := (x mod optimal_exp_mod)%Z) in *.
  assert (FIXED_1 <= optimal_exp_lo_loop optimal_exp_coefs y y 0 / optimal_exp_divisor + y + FIXED_1)%Z as Ha.
  { assert (0 <= optimal_exp_lo_loop optimal_exp_coefs y y 0 / optimal_exp_divisor)%Z; [|lia].
    apply Z.div_pos; [|reflexivity]. apply exp_lo_loop_ge; try lia. vm_compute. reflexivity. }
  set (acc := (optimal_exp_lo_loop _ _ _ _ / _ + _ + _)%Z) in *.
  eapply Rle_trans; [|apply exp_hi_lower; [exact exp_hi_certs2|vm_compute; reflexivity|exact Ha]].
  change (List.length optimal_exp_hi) with 7%nat.
  pose proof (inv_pow2_pos 118) as P118. 
  assert (/ 2 ^ 118 <= 1) as L118.
  { rewrite <- Rinv_1. apply Rinv_le_contravar; [lra|]. apply pow_R1_Rle. lra. }
  pose proof (bernoulli (/ 2 ^ 118) 7 ltac:(lra)) as B. replace (INR 7) with 7 in B by (simpl; lra).
  rewrite (inv_pow2_shift 115 3). change (115 + 3)%nat with 118%nat. replace (2 ^ 3) with 8 by lra.
  assert (exp (IZR x / F) = exp (IZR y / F) * exp (IZR (bits_sum optimal_exp_hi x) / F)) as ->.
  { rewrite <- exp_plus. f_equal. rewrite <- (optimal_exp_decompose x H) at 1. rewrite plus_IZR. unfold y. field. lra. }
  set (A := exp (IZR y / F)) in *. set (B' := exp (IZR (bits_sum optimal_exp_hi x) / F)) in *.
  assert (0 < B') by apply exp_pos.
  assert (1 <= A) as HA.
  { rewrite <- exp_0. apply exp_le_compat. apply Rmult_le_pos; [apply IZR_le; lia|]. left. apply Rinv_0_lt_compat. exact HF. }
  assert (4 <= F * A * / 2 ^ 118) as P4.
  { assert (4 <= F * / 2 ^ 118) as A1.
    { rewrite F_pow. change 127%nat with (118 + 9)%nat. rewrite pow_add.
      replace (2 ^ 118 * 2 ^ 9 * / 2 ^ 118) with (2 ^ 9) by (field; apply pow_nonzero; lra). lra. }
    replace (F * A * / 2 ^ 118) with (F * / 2 ^ 118 * A) by ring. nra. }
  assert (4 <= F * A) as P4' by nra.
  assert (0 <= (1 - / 2 ^ 118) ^ 7) as PQ by (apply pow_le; lra).
  remember (/ 2 ^ 118) as q eqn:Eq. clear Eq. remember ((1 - q) ^ 7) as Q eqn:EQ. clear EQ.
  apply Rle_trans with ((F * A - 4) * B' * (1 - 7 * q)).
  - replace (F * (A * B') * (1 - 8 * q)) with (F * A * (1 - 8 * q) * B') by ring.
    replace ((F * A - 4) * B' * (1 - 7 * q)) with ((F * A - 4) * (1 - 7 * q) * B') by ring.
    apply Rmult_le_compat_r; [lra|]. nra.
  - apply Rle_trans with ((F * A - 4) * B' * Q).
    + apply Rmult_le_compat_l; [|exact B]. apply Rmult_le_pos; lra.
    + apply Rmult_le_compat_r; [assumption|]. apply Rmult_le_compat_r; [lra|]. exact S.
Qed.

(* ---------- optimal_log ---------- *)
Definition log_hi_cert2 (t : Z * Z * Z) : bool :=
  let '(t, a, d) := t in
  ((t =? d) && (FIXED_1 <=? d) && (a =? a / 2 ^ 119 * 2 ^ 119))%Z && exp_lower_cert (a / 2 ^ 119) 256 40 d FIXED_1.
Lemma log_hi_certs2 : forallb log_hi_cert2 optimal_log_hi = true.
Proof. vm_compute. reflexivity. Qed.

Lemma log_hi_bound2 t a d : log_hi_cert2 (t, a, d) = true -> t = d /\ (FIXED_1 <= d)%Z /\ F * ln (IZR d / F) <= IZR a.
Proof.
  unfold log_hi_cert2. intros H. rewrite !andb_true_iff in H. destruct H as [[[H1 H2] H3] H5].
  apply Z.eqb_eq in H1, H3. apply Z.leb_le in H2. split; [assumption|]. split; [assumption|].
  apply exp_lower in H5. pose proof F_pos as HF.
  assert (IZR (a / 2 ^ 119) / 256 = IZR a / F) as E.
  { rewrite H3 at 2. rewrite mult_IZR. rewrite F_pow.
    replace (IZR (2 ^ 119)) with (2 ^ 119) by (rewrite (pow_IZR 2 119); reflexivity).
    change 127%nat with (119 + 8)%nat. rewrite pow_add.
    assert (2 ^ 119 <> 0) by (apply pow_nonzero; lra).
    replace (2 ^ 8) with 256 by lra. field; assumption. }
  rewrite E in H5. assert (F <= IZR d) by (apply IZR_le; exact H2).
  apply ln_le_compat in H5; [|apply Rdiv_lt_0_compat; lra]. rewrite ln_exp in H5.
  apply Rmult_le_compat_l with (r := F) in H5; [|lra]. replace (F * (IZR a / F)) with (IZR a) in H5 by (field; lra). exact H5.
Qed.

Lemma ln_quot a b : 0 < a -> 0 < b -> ln (a / b) = ln a - ln b.
Proof. intros Ha Hb. unfold Rdiv. rewrite ln_mult, ln_Rinv; [ring|lra|lra|apply Rinv_0_lt_compat; lra]. Qed.

Lemma log_hi_lower l : forallb log_hi_cert2 l = true -> forall x acc, (FIXED_1 <= x)%Z ->
  let '(x', acc') := optimal_log_hi_loop l x acc in
  (FIXED_1 <= x')%Z /\ IZR acc + F * ln (IZR x / F) - INR (List.length l) <= IZR acc' + F * ln (IZR x' / F).
Proof.
  pose proof F_pos as HF. pose proof FIXED_1_pos as ZF.
  induction l as [|[[t a] d] l IH]; cbn [forallb optimal_log_hi_loop]; intros H x acc Hx.
  - cbn [List.length INR]. split; [exact Hx|lra].
  - apply andb_true_iff in H. destruct H as [H1 H2].
    apply log_hi_bound2 in H1. destruct H1 as (-> & Hd & H1).
    change (List.length ((d, a, d) :: l)) with (S (List.length l)). rewrite S_INR.
    destruct (Z.leb_spec d x) as [L|L].
    + assert (FIXED_1 <= x * FIXED_1 / d)%Z as Hx' by (apply Z.div_le_lower_bound; nia).
      specialize (IH H2 (x * FIXED_1 / d)%Z (acc + a)%Z Hx').
      destruct (optimal_log_hi_loop l (x * FIXED_1 / d) (acc + a)) as [x' acc'].
      destruct IH as [I1 I2]. split; [exact I1|].
      rewrite plus_IZR in I2.
      assert (0 < IZR d) as Hd' by (apply IZR_lt; lia).
      assert (0 < IZR x) as Hx0 by (apply IZR_lt; lia).
      assert (0 < IZR (x * FIXED_1 / d)) as Hx1 by (apply IZR_lt; lia).
      pose proof (IZR_div_gt (x * FIXED_1) d ltac:(lia)) as Q. rewrite mult_IZR in Q.
      assert (0 < IZR x * F / IZR d) as Hq by (apply Rdiv_lt_0_compat; nra).
      pose proof (ln_trunc (IZR x * F / IZR d) _ Hx' Hq ltac:(lra)) as K.
      rewrite (ln_quot (IZR x * F)) in K by nra. rewrite (ln_mult (IZR x) F) in K by lra.
      rewrite !ln_quot in * by lra.
      apply Rmult_le_compat_l with (r := F) in K; [|lra].
      replace (F * (ln (IZR (x * FIXED_1 / d)) + 1 / F)) with (F * ln (IZR (x * FIXED_1 / d)) + 1) in K by (field; lra). lra.
    + specialize (IH H2 x acc Hx).
      destruct (optimal_log_hi_loop l x acc) as [x' acc']. destruct IH as [I1 I2]. split; [exact I1|].
      lra.
Qed.

(* d <= n (2i+1) + (2i+1): the minuend is rounded down *)
Fixpoint log_lo_cert2 (l : list (Z * Z)) (i : nat) : bool :=
  match l with
  | [] => true
  | (n, d) :: l' => ((d <=? (n + 1) * Z.of_nat (2 * i + 1)) && (d =? FIXED_1 * Z.of_nat (2 * i + 2)))%Z && log_lo_cert2 l' (S i)
  end.
Lemma log_lo_certs2 : log_lo_cert2 optimal_log_lo 0 = true. Proof. vm_compute. reflexivity. Qed.

Lemma log_lo_lower l ymax : log_lo_ok l ymax = true -> (ymax * 2 <= FIXED_1)%Z -> forall i y w z acc, log_lo_cert2 l i = true ->
  (0 <= y <= ymax)%Z -> (0 <= w)%Z -> (0 <= z)%Z ->
  F * (IZR y / F) ^ 2 - 1 <= IZR w <= F * (IZR y / F) ^ 2 ->
  F * (IZR y / F) ^ (2 * i + 1) - 2 <= IZR z <= F * (IZR y / F) ^ (2 * i + 1) ->
  IZR acc + F * (lsum (i + List.length l) (IZR y / F) - lsum i (IZR y / F)) - 4 * INR (List.length l)
  <= IZR (optimal_log_lo_loop l y w z acc).
Proof.
  pose proof F_pos as HF.
  induction l as [|[n d] l IH]; cbn [log_lo_ok forallb optimal_log_lo_loop log_lo_cert2];
    intros Hok Hym i y w z acc Hc Hy Hw Hz Bw Bz.
  - cbn [List.length INR]. rewrite Nat.add_0_r. lra.
  - rewrite !andb_true_iff in Hok. destruct Hok as [[K1 K2] K3].
    apply Z.leb_le in K1. apply Z.ltb_lt in K2.
    rewrite !andb_true_iff in Hc. destruct Hc as [[C1 C2] C3].
    apply Z.leb_le in C1. apply Z.eqb_eq in C2.
    set (u := IZR y / F) in *.
    assert (0 <= IZR y) by (apply IZR_le; lia).
    assert (0 <= u) as Hu. { unfold u. apply Rmult_le_pos; [lra|]. left. apply Rinv_0_lt_compat. exact HF. }
    assert (IZR y = F * u) as Ey by (unfold u; field; lra).
    assert (u <= / 2) as Hu2.
    { assert (y * 2 <= FIXED_1)%Z as L by lia. apply IZR_le in L. rewrite mult_IZR, Ey in L. nra. }
    assert (0 <= IZR z) as Hz' by (apply IZR_le; exact Hz).
    assert (0 <= IZR w) as Hw' by (apply IZR_le; exact Hw).
    assert (0 <= u ^ (2 * i + 1) <= / 2) as Hp.
    { split; [apply pow_le; exact Hu|]. replace (2 * i + 1)%nat with (S (2 * i)) by lia. rewrite <- tech_pow_Rmult.
      assert (0 <= u ^ (2 * i) <= 1) as [Q1 Q2]; [|nra]. split; [apply pow_le; exact Hu|]. rewrite <- (pow1 (2 * i)). apply pow_incr. lra. }
    assert (0 <= u ^ 2 <= / 4) as Hp2 by (simpl; nra).
    assert (F * u ^ (2 * S i + 1) - 2 <= IZR (z * w / FIXED_1) <= F * u ^ (2 * S i + 1)) as Bz'.
    { replace (2 * S i + 1)%nat with (2 * i + 1 + 2)%nat by lia. rewrite pow_add.
      set (p := u ^ (2 * i + 1)) in *. set (s := u ^ 2) in *.
      split.
      - left. eapply Rle_lt_trans; [|apply IZR_div_gt; reflexivity]. rewrite mult_IZR.
        assert (F * (p * s) - 1 <= IZR z * IZR w / F); [|lra].
        apply Rmult_le_reg_r with F; [lra|]. replace (IZR z * IZR w / F * F) with (IZR z * IZR w) by (field; lra).
        replace ((F * (p * s) - 1) * F) with ((F * p) * (F * s) - F) by ring.
        assert ((F * p - IZR z) * (F * s) + IZR z * (F * s - IZR w) <= F); [|nra].
        apply Rle_trans with (2 * (F * s) + F * p * 1); [apply Rplus_le_compat; apply Rmult_le_compat; nra|]. nra.
      - eapply Rle_trans; [apply IZR_div_le; reflexivity|]. rewrite mult_IZR.
        apply Rmult_le_reg_r with F; [lra|]. unfold Rdiv. rewrite Rmult_assoc, Rinv_l, Rmult_1_r by lra.
        replace (F * (p * s) * F) with ((F * p) * (F * s)) by ring.
        apply Rmult_le_compat; lra. }
    specialize (IH K3 Hym (S i) y w (z * w / FIXED_1)%Z (acc + z * (n - y) / d)%Z C3 Hy Hw).
    assert (0 <= z * w / FIXED_1)%Z as Hz2 by (apply Z.div_pos; [nia|reflexivity]).
    specialize (IH Hz2 Bw Bz').
    eapply Rle_trans; [|exact IH]. cbn [List.length].
    replace (S i + List.length l)%nat with (i + S (List.length l))%nat by lia.
    rewrite S_INR, plus_IZR.
    assert (1 <= INR (2 * i + 1)) as P1 by (replace 1 with (INR 1) by reflexivity; apply le_INR; lia).
    assert (1 <= INR (2 * i + 2)) as P2 by (replace 1 with (INR 1) by reflexivity; apply le_INR; lia).
    assert (F * (u ^ (2 * i + 1) / INR (2 * i + 1) - u ^ (2 * i + 2) / INR (2 * i + 2)) - 4 <= IZR (z * (n - y) / d)) as T.
    { left. eapply Rle_lt_trans; [|apply IZR_div_gt; exact K2].
      rewrite mult_IZR, minus_IZR.
      assert (IZR d = F * INR (2 * i + 2)) as Ed by (rewrite C2, mult_IZR, <- INR_IZR_INZ; reflexivity).
      assert (0 < IZR d) as Hd by (apply IZR_lt; exact K2).
      assert (IZR d <= (IZR n + 1) * INR (2 * i + 1)) as Cn.
      { apply IZR_le in C1. rewrite mult_IZR, plus_IZR, <- INR_IZR_INZ in C1. exact C1. }
      set (k1 := INR (2 * i + 1)) in *. set (k2 := INR (2 * i + 2)) in *.
      replace (u ^ (2 * i + 2)) with (u ^ (2 * i + 1) * u) by (rewrite !pow_add; simpl; ring).
      set (p := u ^ (2 * i + 1)) in *.
      assert (/ k1 - / IZR d - u / k2 <= (IZR n - IZR y) / IZR d) as Q.
      { apply Rmult_le_reg_r with (IZR d); [exact Hd|].
        replace ((IZR n - IZR y) / IZR d * IZR d) with (IZR n - IZR y) by (field; lra).
        replace ((/ k1 - / IZR d - u / k2) * IZR d) with (IZR d / k1 - 1 - IZR y).
        - assert (IZR d / k1 <= IZR n + 1); [|lra]. apply Rmult_le_reg_r with k1; [lra|].
          replace (IZR d / k1 * k1) with (IZR d) by (field; lra). exact Cn.
        - rewrite Ey, Ed. field. lra. }
      replace (IZR z * (IZR n - IZR y) / IZR d) with (IZR z * ((IZR n - IZR y) / IZR d)) by (field; lra).
      assert (0 < / k1 <= 1) as I1. { split; [apply Rinv_0_lt_compat; lra|]. rewrite <- Rinv_1. apply Rinv_le_contravar; lra. }
      assert (0 < / k2 <= 1) as I2. { split; [apply Rinv_0_lt_compat; lra|]. rewrite <- Rinv_1. apply Rinv_le_contravar; lra. }
      assert (0 <= u / k2 <= 1) as I3. { unfold Rdiv. nra. }
      assert (IZR z * / IZR d <= 1) as Zd.
      { apply Rmult_le_reg_r with (IZR d); [lra|]. rewrite Rmult_assoc, Rinv_l, Rmult_1_l, Rmult_1_r by lra. rewrite Ed. nra. }
      apply Rmult_le_compat_l with (r := IZR z) in Q; [|exact Hz'].
      unfold Rdiv in *. nra. }
    change (IZR y / F) with u.
    replace (lsum (S i) u) with (lsum i u + (u ^ (2 * i + 1) / INR (2 * i + 1) - u ^ (2 * i + 2) / INR (2 * i + 2))) in * by reflexivity.
    change (IZR y / F) with u in IH. lra.
Qed.

Lemma optimal_log_lower x : (FIXED_1 <= x < OPT_LOG_MAX_VAL)%Z ->
  F * ln (IZR x / F) - 41 <= IZR (optimal_log x).
Proof.
  intros H. unfold optimal_log. pose proof F_pos as HF.
  pose proof (log_residual x 0 H) as R.
  pose proof (log_hi_lower optimal_log_hi log_hi_certs2 x 0%Z (proj1 H)) as U.
  destruct (optimal_log_hi_loop optimal_log_hi x 0) as [x' acc]. cbn [fst snd] in *.
  destruct U as [U1 U2].
  assert (log_lo_ok optimal_log_lo (FIXED_1 / 255) = true) as L by (vm_compute; reflexivity).
  pose proof (log_lo_lower _ _ L ltac:(vm_compute; discriminate) 0 (x' - FIXED_1)%Z ((x' - FIXED_1) * (x' - FIXED_1) / FIXED_1)%Z (x' - FIXED_1)%Z acc
    log_lo_certs2 R) as Q.
  set (y := (x' - FIXED_1)%Z) in *.
  assert (0 <= y * y / FIXED_1)%Z as Hw by (apply Z.div_pos; [nia|reflexivity]).
  specialize (Q Hw (proj1 R)).
  assert (F * (IZR y / F) ^ 2 - 1 <= IZR (y * y / FIXED_1) <= F * (IZR y / F) ^ 2) as Bw.
  { replace (F * (IZR y / F) ^ 2) with (IZR (y * y) / F) by (rewrite mult_IZR; field; lra). split; [left; apply IZR_div_gt; reflexivity|apply IZR_div_le; reflexivity]. }
  assert (F * (IZR y / F) ^ (2 * 0 + 1) - 2 <= IZR y <= F * (IZR y / F) ^ (2 * 0 + 1)) as Bz.
  { replace (F * (IZR y / F) ^ (2 * 0 + 1)) with (IZR y) by (simpl; field; lra). lra. }
  specialize (Q Bw Bz).
  assert (0 <= IZR y) by (apply IZR_le; lia).
  assert (0 <= IZR y / F <= / 255) as Hu.
  { split; [apply Rmult_le_pos; [lra|left; apply Rinv_0_lt_compat; exact HF]|].
    apply Rmult_le_reg_r with F; [lra|]. replace (IZR y / F * F) with (IZR y) by (field; lra).
    assert (y * 255 <= FIXED_1)%Z as Ly. { assert (FIXED_1 / 255 * 255 <= FIXED_1)%Z by (vm_compute; discriminate). lia. }
    apply IZR_le in Ly. rewrite mult_IZR in Ly. lra. }
  change (0 + List.length optimal_log_lo)%nat with 8%nat in Q. change (List.length optimal_log_lo) with 8%nat in Q.
  pose proof (ln_le_lsum 8 (IZR y / F) (proj1 Hu)) as LL.
  replace (1 + IZR y / F) with (IZR x' / F) in LL by (unfold y; rewrite minus_IZR; field; lra).
  change (INR (List.length optimal_log_hi)) with (INR 8) in U2.
  replace (INR 8) with 8 in * by (simpl; lra).
  replace (lsum 0 (IZR y / F)) with 0 in Q by reflexivity.
  assert (F * ((IZR y / F) ^ (2 * 8 + 1) / INR (2 * 8 + 1)) <= 1) as Tail.
  { change (2 * 8 + 1)%nat with 17%nat. replace (INR 17) with 17 by (simpl; lra).
    assert ((IZR y / F) ^ 17 <= (/ 255) ^ 17) as P by (apply pow_incr; exact Hu).
    apply Rle_trans with (F * ((/ 255) ^ 17 / 17)); [apply Rmult_le_compat_l; lra|].
    rewrite pow_inv. apply Rmult_le_reg_r with (17 * 255 ^ 17); [assert (0 < 255 ^ 17) by (apply pow_lt; lra); lra|].
    replace (F * (/ 255 ^ 17 / 17) * (17 * 255 ^ 17)) with F by (field; apply pow_nonzero; lra).
    rewrite Rmult_1_l, (pow_IZR 255 17), <- mult_IZR. apply IZR_le. vm_compute. discriminate. }
  nra.
Qed.

(* ---------- general_log ---------- *)
Lemma ln2_cert2 : ln 2 * (1 - / 2 ^ 122) <= IZR LN2_NUMERATOR / IZR LN2_DENOMINATOR.
Proof.
  assert (exp_gt_cert (LN2_NUMERATOR * (2 ^ 122 + 1)) (LN2_DENOMINATOR * 2 ^ 122) 140 40 2 1 = true) as C by (vm_cast_no_check (eq_refl true)).
  apply exp_gt, Rlt_le in C. apply ln_le_compat in C; [|lra]. rewrite ln_exp in C. replace (2 / 1) with 2 in C by field.
  assert (0 < IZR LN2_DENOMINATOR) as PD by (apply IZR_lt; reflexivity).
  rewrite !mult_IZR, plus_IZR in C. replace (IZR (2 ^ 122)) with (2 ^ 122) in C by (rewrite (pow_IZR 2 122); reflexivity).
  pose proof (pow_lt 2 122 ltac:(lra)) as P. assert (1 <= 2 ^ 122) as P1 by (apply pow_R1_Rle; lra).
  remember (2 ^ 122) as q eqn:Eq. clear Eq.
  replace (IZR LN2_NUMERATOR * (q + 1) / (IZR LN2_DENOMINATOR * q)) with (IZR LN2_NUMERATOR / IZR LN2_DENOMINATOR * (1 + / q)) in C by (field; lra).
  assert (0 < / q <= 1) as Hq. { split; [apply Rinv_0_lt_compat; lra|]. rewrite <- Rinv_1. apply Rinv_le_contravar; lra. }
  assert (0 < IZR LN2_NUMERATOR / IZR LN2_DENOMINATOR) by (apply Rdiv_lt_0_compat; [apply IZR_lt; reflexivity|exact PD]).
  set (r := IZR LN2_NUMERATOR / IZR LN2_DENOMINATOR) in *. clearbody r.
  apply Rle_trans with (r * (1 + / q) * (1 - / q)); [apply Rmult_le_compat_r; lra|]. nra.
Qed.

Lemma general_log_loop_lower i : forall x acc, (FIXED_1 <= x < FIXED_2)%Z ->
  IZR acc * ln 2 + 2 ^ i * ln (IZR x / F) - 1 - 2 * (2 ^ i - 1) / F <= IZR (general_log_loop i x acc) * ln 2.
Proof.
  pose proof F_pos as HF. pose proof FIXED_1_pos.
  assert (0 < ln 2) as L2 by (rewrite <- ln_1; apply ln_increasing; lra).
  assert (ln 2 <= 1) as L2'.
  { rewrite <- (ln_exp 1). apply ln_le_compat; [lra|]. pose proof (exp_ineq1 1 ltac:(lra)). lra. }
  induction i as [|i IH]; intros x acc Hx; cbn [general_log_loop]; cbv zeta.
  - assert (ln (IZR x / F) <= ln 2) as K.
    { apply ln_le_compat; [apply Rdiv_lt_0_compat; [apply IZR_lt; lia|lra]|].
      apply Rmult_le_reg_r with F; [lra|]. replace (IZR x / F * F) with (IZR x) by (field; lra).
      rewrite <- mult_IZR. apply IZR_le. rewrite FIXED_2_eq in Hx. lia. }
    simpl. unfold Rdiv. lra.
  - assert (FIXED_1 <= x * x / FIXED_1)%Z as Hx2 by (apply Z.div_le_lower_bound; nia).
    assert (x * x / FIXED_1 < 2 * FIXED_2)%Z as Hx2' by (apply Z.div_lt_upper_bound; rewrite ?FIXED_2_eq in *; nia).
    assert (0 < IZR x) as Hx0 by (apply IZR_lt; lia).
    assert (0 < IZR (x * x / FIXED_1)) as Hx1 by (apply IZR_lt; lia).
    assert (2 * ln (IZR x / F) <= ln (IZR (x * x / FIXED_1) / F) + 1 / F) as K.
    { pose proof (IZR_div_gt (x * x) FIXED_1 ltac:(lia)) as Q. rewrite mult_IZR in Q.
      assert (0 < IZR x * IZR x / F) as Hq by (apply Rdiv_lt_0_compat; nra).
      pose proof (ln_trunc (IZR x * IZR x / F) _ Hx2 Hq ltac:(lra)) as T.
      rewrite (ln_quot (IZR x * IZR x)) in T by nra. rewrite (ln_mult (IZR x)) in T by lra.
      rewrite !ln_quot by lra. lra. }
    assert (0 < 2 ^ i) as H2 by (apply pow_lt; lra).
    assert (0 < 1 / F) as HiF by (apply Rdiv_lt_0_compat; lra).
    assert (2 * (2 ^ S i - 1) / F = 2 * (2 ^ i - 1) / F + 2 ^ i * (2 * (1 / F))) as Eerr by (rewrite <- tech_pow_Rmult; field; lra).
    rewrite Eerr, <- tech_pow_Rmult.
    destruct (Z.leb_spec FIXED_2 (x * x / FIXED_1)) as [L|L].
    + rewrite Z.shiftr_div_pow2 by lia. change (2 ^ 1)%Z with 2%Z.
      assert (FIXED_1 <= x * x / FIXED_1 / 2)%Z as Hx3 by (apply Z.div_le_lower_bound; rewrite ?FIXED_2_eq in *; lia).
      assert (x * x / FIXED_1 / 2 < FIXED_2)%Z as Hx3' by (apply Z.div_lt_upper_bound; lia).
      assert (0 < IZR (x * x / FIXED_1 / 2)) as Hx4 by (apply IZR_lt; lia).
      eapply Rle_trans; [|apply IH; lia].
      rewrite plus_IZR. rewrite Z.shiftl_mul_pow2 by lia. change ONE with 1%Z. rewrite Z.mul_1_l.
      replace (Z.of_nat (S i) - 1)%Z with (Z.of_nat i) by lia.
      rewrite <- (pow_IZR 2 i).
      assert (ln (IZR (x * x / FIXED_1) / F) <= ln 2 + ln (IZR (x * x / FIXED_1 / 2) / F) + 1 / F) as K2.
      { pose proof (IZR_div_gt (x * x / FIXED_1) 2 ltac:(lia)) as Q.
        pose proof (ln_trunc (IZR (x * x / FIXED_1) / 2) _ Hx3 ltac:(lra) ltac:(lra)) as T.
        rewrite ln_quot in T by lra. rewrite !ln_quot by lra. lra. }
      assert (2 ^ i * (2 * ln (IZR x / F)) <= 2 ^ i * (ln 2 + ln (IZR (x * x / FIXED_1 / 2) / F) + 2 * (1 / F))) as M by (apply Rmult_le_compat_l; lra).
      lra.
    + eapply Rle_trans; [|apply IH; lia].
      assert (2 ^ i * (2 * ln (IZR x / F)) <= 2 ^ i * (ln (IZR (x * x / FIXED_1) / F) + 2 * (1 / F))) as M by (apply Rmult_le_compat_l; lra).
      lra.
Qed.

Lemma general_log_lower x v : (FIXED_1 <= x < 2 ^ 256)%Z -> general_log x = Ok v ->
  F * ln (IZR x / F) * (1 - / 2 ^ 122) - 5 <= IZR v.
Proof.
  intros H E. pose proof F_pos as HF. pose proof FIXED_1_pos.
  assert (0 < ln 2) as L2 by (rewrite <- ln_1; apply ln_increasing; lra).
  assert (0 < IZR x) as Hx0 by (apply IZR_lt; lia).
  assert (exists y acc, (FIXED_1 <= y < FIXED_2)%Z /\ (0 <= acc)%Z /\
     v = ((if FIXED_1 <? y then general_log_loop (Z.to_nat MAX_PRECISION) y acc else acc) * LN2_NUMERATOR / LN2_DENOMINATOR)%Z /\
     F * ln (IZR x / F) - 1 <= IZR acc * ln 2 + F * ln (IZR y / F)) as (y & acc & Hy & Hacc & Ev & B).
  { unfold general_log in E. destruct (Z.leb_spec FIXED_2 x) as [L|L].
    - rewrite FIXED_2_eq in L.
      assert (2 <= x / FIXED_1 < 2 ^ 256)%Z as Hq.
      { split; [apply Z.div_le_lower_bound; lia|apply Z.div_lt_upper_bound; lia]. }
      rewrite floor_log2_ok in E by lia. cbn [rbind] in E. apply Ok_inj in E. symmetry in E.
      set (c := Z.log2 (x / FIXED_1)) in *.
      assert (0 <= c)%Z as Hc by apply Z.log2_nonneg.
      pose proof (Z.log2_spec (x / FIXED_1) ltac:(lia)) as [S1 S2]. fold c in S1, S2.
      assert (0 < 2 ^ c)%Z as Hpc by (apply Z.pow_pos_nonneg; lia).
      assert (FIXED_1 * 2 ^ c <= x)%Z as Hxc.
      { pose proof (Z.mul_div_le x FIXED_1 ltac:(lia)). nia. }
      assert (x < FIXED_1 * (2 * 2 ^ c))%Z as Hxc'.
      { rewrite Z.pow_succ_r in S2 by lia. pose proof (Z.mod_pos_bound x FIXED_1 ltac:(lia)). pose proof (Z.div_mod x FIXED_1 ltac:(lia)). nia. }
      rewrite Z.shiftr_div_pow2 in E by lia.
      exists (x / 2 ^ c)%Z, (c * FIXED_1)%Z.
      assert (FIXED_1 <= x / 2 ^ c)%Z as Hy by (apply Z.div_le_lower_bound; nia).
      assert (x / 2 ^ c < FIXED_2)%Z as Hy' by (rewrite FIXED_2_eq; apply Z.div_lt_upper_bound; nia).
      split; [lia|]. split; [nia|]. split; [exact E|].
      rewrite mult_IZR.
      assert (0 < IZR (x / 2 ^ c)) by (apply IZR_lt; lia).
      assert (0 < IZR (2 ^ c)) as Hpc' by (apply IZR_lt; exact Hpc).
      assert (ln (IZR (2 ^ c)) = IZR c * ln 2) as L2c.
      { rewrite <- (Z2Nat.id c Hc). rewrite <- pow_IZR. rewrite <- INR_IZR_INZ.
        rewrite <- Rpower_pow by lra. unfold Rpower. rewrite ln_exp. reflexivity. }
      pose proof (IZR_div_gt x (2 ^ c) Hpc) as Q.
      pose proof (ln_trunc (IZR x / IZR (2 ^ c)) _ Hy ltac:(apply Rdiv_lt_0_compat; lra) ltac:(lra)) as T.
      rewrite ln_quot in T by lra. rewrite L2c in T. rewrite !ln_quot by lra.
      apply Rmult_le_compat_l with (r := F) in T; [|lra].
      replace (F * (ln (IZR (x / 2 ^ c)) + 1 / F)) with (F * ln (IZR (x / 2 ^ c)) + 1) in T by (field; lra). lra.
    - cbn [rbind] in E. apply Ok_inj in E. symmetry in E. exists x, 0%Z.
      split; [lia|]. split; [lia|]. split; [exact E|]. lra. }
  assert (F * ln (IZR x / F) - 4 <= IZR (if (FIXED_1 <? y)%Z then general_log_loop (Z.to_nat MAX_PRECISION) y acc else acc) * ln 2) as G.
  { destruct (Z.ltb_spec FIXED_1 y) as [L|L].
    - eapply Rle_trans; [|apply general_log_loop_lower; lia].
      replace (2 ^ Z.to_nat MAX_PRECISION) with F by (rewrite F_pow; reflexivity).
      assert (2 * (F - 1) / F <= 2); [|lra]. apply Rmult_le_reg_r with F; [lra|].
      replace (2 * (F - 1) / F * F) with (2 * F - 2) by (field; lra). lra.
    - assert (y = FIXED_1) by lia. subst y.
      replace (F / F) with 1 in B by (field; lra). rewrite ln_1 in B. lra. }
  set (w := if (FIXED_1 <? y)%Z then _ else _) in *.
  assert (0 <= IZR w) as Hw.
  { apply IZR_le. unfold w. destruct (FIXED_1 <? y)%Z; [|exact Hacc].
    pose proof (general_log_loop_ge (Z.to_nat MAX_PRECISION) y acc). lia. }
  rewrite Ev. pose proof (IZR_div_gt (w * LN2_NUMERATOR) LN2_DENOMINATOR eq_refl) as Q.
  rewrite mult_IZR in Q. unfold Rdiv in Q. rewrite Rmult_assoc in Q. fold (Rdiv (IZR LN2_NUMERATOR) (IZR LN2_DENOMINATOR)) in Q.
  pose proof (Rmult_le_compat_l (IZR w) _ _ Hw ln2_cert2) as M.
  assert (0 <= 1 - / 2 ^ 122 <= 1) as Hq.
  { pose proof (inv_pow2_pos 122). split; [|lra]. assert (/ 2 ^ 122 <= 1); [|lra]. rewrite <- Rinv_1. apply Rinv_le_contravar; [lra|]. apply pow_R1_Rle. lra. }
  remember (1 - / 2 ^ 122) as q eqn:Eq. clear Eq.
  assert ((F * ln (IZR x / F) - 4) * q <= IZR w * ln 2 * q) as M2 by (apply Rmult_le_compat_r; lra). lra.
Qed.

(* ---------- power ---------- *)
Lemma exp_ge_lin x : 1 + x <= exp x.
Proof. destruct (Req_dec x 0) as [->|N]; [rewrite exp_0; lra|]. left. apply exp_ineq1. exact N. Qed.

(* the exponent the code computes, and what is done with it *)
Lemma power_exponent bn bd en ed r p : (0 < bd <= bn)%Z -> (0 <= en)%Z -> (0 < ed)%Z ->
  power bn bd en ed = Ok (r, p) ->
  exists x, (0 <= x)%Z /\
    F * (IZR en / IZR ed * ln (IZR bn / IZR bd)) - 32 * (IZR en / IZR ed * ln (IZR bn / IZR bd)) - 42 * (IZR en / IZR ed) - 1 <= IZR x /\
    IZR x <= F * (IZR en / IZR ed * (ln (IZR bn / IZR bd) + 8 / F)) /\
    0 <= ln (IZR bn / IZR bd) /\
    ((x < OPT_EXP_MAX_VAL)%Z /\ r = optimal_exp x /\ p = 127%Z \/
     (OPT_EXP_MAX_VAL <= x)%Z /\ (0 <= p <= 127)%Z /\ r = general_exp (x / 2 ^ (127 - p)) p /\ (p = 0 /\ table 32 < x \/ 32 <= p)%Z).
Proof.
  intros Hb He Hd E. pose proof F_pos as HF. pose proof FIXED_1_pos.
  unfold power, rrequire, py_div in E.
  destruct (Z.ltb_spec bn MAX_NUM) as [Hn|Hn]; [|discriminate]. cbn [rbind] in E.
  destruct (Z.eqb_spec bd 0); [lia|]. cbn [rbind] in E.
  rewrite MAX_NUM_pow in Hn.
  assert (FIXED_1 <= bn * FIXED_1 / bd)%Z as B1 by (apply Z.div_le_lower_bound; nia).
  assert (bn * FIXED_1 / bd < 2 ^ 256)%Z as B2.
  { apply Z.div_lt_upper_bound; [lia|]. rewrite FIXED_1_pow.
    change (2 ^ 256)%Z with (2 ^ 129 * 2 ^ 127)%Z. nia. }
  pose proof (IZR_div_gt (bn * FIXED_1) bd ltac:(lia)) as Qb. rewrite mult_IZR in Qb.
  pose proof (IZR_div_le (bn * FIXED_1) bd ltac:(lia)) as Qb'. rewrite mult_IZR in Qb'.
  set (base := (bn * FIXED_1 / bd)%Z) in *.
  assert (0 < IZR bd) as Hbd by (apply IZR_lt; lia).
  assert (0 < IZR bn) as Hbn by (apply IZR_lt; lia).
  assert (0 < IZR base) as Hbase by (apply IZR_lt; lia).
  assert (ln (IZR bn / IZR bd) <= ln (IZR base / F) + 1 / F) as HL.
  { pose proof (ln_trunc (IZR bn * F / IZR bd) base B1 ltac:(apply Rdiv_lt_0_compat; nra) ltac:(lra)) as T.
    rewrite (ln_quot (IZR bn * F)), (ln_mult (IZR bn)) in T by nra. rewrite !ln_quot by lra. lra. }
  assert (ln (IZR base / F) <= ln (IZR bn / IZR bd)) as HU.
  { apply ln_le_compat; [apply Rdiv_lt_0_compat; lra|]. apply Rmult_le_reg_r with F; [lra|].
    replace (IZR base / F * F) with (IZR base) by (field; lra). eapply Rle_trans; [exact Qb'|]. right. field. lra. }
  set (l := ln (IZR bn / IZR bd)) in *.
  assert (0 <= l) as Hl0.
  { unfold l. rewrite <- ln_1. apply ln_le_compat; [lra|]. apply Rmult_le_reg_r with (IZR bd); [lra|].
    replace (IZR bn / IZR bd * IZR bd) with (IZR bn) by (field; lra). rewrite Rmult_1_l. apply IZR_le. lia. }
  assert (0 <= ln (IZR base / F)) as Hlb0.
  { rewrite <- ln_1. apply ln_le_compat; [lra|]. apply Rmult_le_reg_r with F; [lra|].
    replace (IZR base / F * F) with (IZR base) by (field; lra). rewrite Rmult_1_l. apply IZR_le. lia. }
  assert (exists bl, (if (base <? OPT_LOG_MAX_VAL)%Z then Ok (optimal_log base) else general_log base) = Ok bl
          /\ (0 <= bl)%Z /\ F * ln (IZR base / F) * (1 - / 2 ^ 122) - 41 <= IZR bl <= F * l + 8) as (bl & El & Hbl & Lbl & Ubl).
  { pose proof (inv_pow2_pos 122) as P122. destruct (Z.ltb_spec base OPT_LOG_MAX_VAL).
    - exists (optimal_log base). split; [reflexivity|]. split; [apply optimal_log_nonneg; lia|].
      pose proof (optimal_log_upper base ltac:(lia)). pose proof (optimal_log_lower base ltac:(lia)).
      remember (/ 2 ^ 122) as q eqn:Eq. clear Eq. assert (0 <= F * ln (IZR base / F)) by nra. split; nra.
    - destruct (general_log_ok base ltac:(lia)) as (v & Ev & Hv). exists v. split; [exact Ev|]. split; [exact Hv|].
      pose proof (general_log_upper base v ltac:(lia) Ev). pose proof (general_log_lower base v ltac:(lia) Ev). split; nra. }
  rewrite El in E. cbn [rbind] in E. destruct (Z.eqb_spec ed 0); [lia|]. cbn [rbind] in E.
  assert (0 < IZR ed) as Hed by (apply IZR_lt; lia).
  assert (0 <= IZR en) as Hen by (apply IZR_le; lia).
  assert (0 <= bl * en / ed)%Z as Hx by (apply Z.div_pos; nia).
  pose proof (IZR_div_le (bl * en) ed Hd) as Qx'. pose proof (IZR_div_gt (bl * en) ed Hd) as Qx. rewrite mult_IZR in Qx, Qx'.
  set (x := (bl * en / ed)%Z) in *.
  replace (IZR bl * IZR en / IZR ed) with (IZR bl * (IZR en / IZR ed)) in Qx, Qx' by (field; lra).
  set (e := IZR en / IZR ed) in *.
  assert (0 <= e) as He0. { unfold e. apply Rmult_le_pos; [lra|]. left. apply Rinv_0_lt_compat. exact Hed. }
  exists x. split; [exact Hx|]. split; [|split; [|split; [exact Hl0|]]].
  - assert (F * / 2 ^ 122 = 32) as E32.
    { rewrite F_pow. change 127%nat with (122 + 5)%nat. rewrite pow_add. replace (2 ^ 5) with 32 by lra. field. }
    set (lb := ln (IZR base / F)) in *.
    assert (F * l <= F * lb + 1) as HL'.
    { apply Rmult_le_compat_l with (r := F) in HL; [|lra]. replace (F * (lb + 1 / F)) with (F * lb + 1) in HL by (field; lra). lra. }
    assert (F * lb * (1 - / 2 ^ 122) = F * lb - 32 * lb) as E2 by (rewrite <- E32; ring). rewrite E2 in Lbl.
    assert ((F * l - 1 - 32 * l - 41) * e <= IZR bl * e) as M by (apply Rmult_le_compat_r; lra).
    lra.
  - eapply Rle_trans; [exact Qx'|].
    replace (F * (e * (l + 8 / F))) with ((F * l + 8) * e) by (field; lra). apply Rmult_le_compat_r; lra.
  - destruct (Z.ltb_spec x OPT_EXP_MAX_VAL) as [L|L].
    + left. apply Ok_inj in E. apply pair_equal_spec in E. destruct E as [<- <-]. repeat split. exact L.
    + right. split; [exact L|]. destruct (find_position_spec x) as (q & Eq & Hq). rewrite Eq in E. cbn [rbind] in E.
      apply Ok_inj in E. apply pair_equal_spec in E. destruct E as [<- <-]. split; [lia|].
      rewrite Z.shiftr_div_pow2 by (change MAX_PRECISION with 127%Z; lia). split; [reflexivity|].
      destruct Hq as [[-> Hq]|[Hq _]]; [left|right; lia]. split; [reflexivity|]. apply Hq. lia.
Qed.

Lemma power_lower bn bd en ed r p : (0 < bd <= bn)%Z -> (0 <= en)%Z -> (0 < ed)%Z ->
  power bn bd en ed = Ok (r, p) -> IZR en / IZR ed * (ln (IZR bn / IZR bd) + 8 / F) < 16 ->
  p = 127%Z /\
  exp (IZR en / IZR ed * ln (IZR bn / IZR bd)) * (1 - (42 * (IZR en / IZR ed) + 513) / F - / 2 ^ 115) <= IZR r / F.
Proof.
  intros Hb He Hd E Hlim. pose proof F_pos as HF. pose proof FIXED_1_pos.
  destruct (power_exponent _ _ _ _ _ _ Hb He Hd E) as (x & Hx & Lx0 & Ux & Hl0 & Hc).
  assert (0 < IZR ed) as Hed by (apply IZR_lt; lia).
  assert (0 <= IZR en) as Hen by (apply IZR_le; lia).
  set (e := IZR en / IZR ed) in *. set (l := ln (IZR bn / IZR bd)) in *.
  assert (0 <= e) as He0. { unfold e. apply Rmult_le_pos; [lra|]. left. apply Rinv_0_lt_compat. exact Hed. }
  assert (x < OPT_EXP_MAX_VAL)%Z as Hx16.
  { rewrite OEM_eq. apply lt_IZR. rewrite mult_IZR. eapply Rle_lt_trans; [exact Ux|].
    rewrite (Rmult_comm F). apply Rmult_lt_compat_r; lra. }
  destruct Hc as [(_ & -> & ->)|(Hc & _)]; [|lia]. split; [reflexivity|].
  pose proof (optimal_exp_lower x (conj Hx Hx16)) as OE.
  assert (0 <= 8 / F) as H8F by (apply Rmult_le_pos; [lra|left; apply Rinv_0_lt_compat; lra]).
  assert (e * l <= 16) as Hel by nra.
  assert (F * (e * l) - 42 * e - 513 <= IZR x) as Lx by lra.
  assert (e * l - (42 * e + 513) / F <= IZR x / F) as Lx'.
  { apply Rmult_le_reg_r with F; [lra|]. replace (IZR x / F * F) with (IZR x) by (field; lra).
    replace ((e * l - (42 * e + 513) / F) * F) with (F * (e * l) - 42 * e - 513) by (field; lra). exact Lx. }
  apply exp_le_compat in Lx'. unfold Rminus at 1 in Lx'. rewrite exp_plus in Lx'.
  set (a := (42 * e + 513) / F) in *.
  assert (0 <= a) as Ha by (unfold a; apply Rmult_le_pos; [lra|left; apply Rinv_0_lt_compat; lra]).
  pose proof (exp_ge_lin (- a)) as Xa. pose proof (exp_pos (e * l)) as Pel. pose proof (exp_pos (IZR x / F)) as Px.
  apply Rmult_le_reg_r with F; [lra|]. replace (IZR (optimal_exp x) / F * F) with (IZR (optimal_exp x)) by (field; lra).
  eapply Rle_trans; [|exact OE].
  assert (0 < / 2 ^ 115 < 1) as Hq.
  { split; [apply inv_pow2_pos|]. rewrite <- Rinv_1. apply Rinv_lt_contravar; [rewrite Rmult_1_l; apply pow_lt; lra|apply Rlt_pow_R1; [lra|lia]]. }
  remember (/ 2 ^ 115) as q eqn:Eq. clear Eq.
  assert (exp (e * l) * (1 - a) <= exp (IZR x / F)) as M1.
  { eapply Rle_trans; [|exact Lx']. apply Rmult_le_compat_l; lra. }
  assert (exp (e * l) * (1 - a - q) <= exp (IZR x / F) * (1 - q)) as M2.
  { apply Rle_trans with (exp (e * l) * (1 - a) * (1 - q)); [|apply Rmult_le_compat_r; lra].
    rewrite Rmult_assoc. apply Rmult_le_compat_l; [lra|]. nra. }
  replace (F * exp (IZR x / F) * (1 - q)) with (exp (IZR x / F) * (1 - q) * F) by ring.
  apply Rmult_le_compat_r; lra.
Qed.

(* ---------- large powers ---------- *)
Lemma general_exp_loop_mono l p : (0 <= p)%Z -> forallb (fun c => 0 <=? c)%Z l = true -> forall x y xi yi a b,
  (0 <= x <= y)%Z -> (0 <= xi <= yi)%Z -> (a <= b)%Z -> (general_exp_loop l x p xi a <= general_exp_loop l y p yi b)%Z.
Proof.
  intros Hp. induction l as [|c l IH]; cbn [forallb general_exp_loop]; intros H x y xi yi a b Hx Hxi Hab; [exact Hab|].
  apply andb_true_iff in H. destruct H as [H1 H2]. apply Z.leb_le in H1. cbv zeta.
  rewrite !Z.shiftr_div_pow2 by exact Hp.
  assert (0 < 2 ^ p)%Z by (apply Z.pow_pos_nonneg; lia).
  assert (0 <= xi * x / 2 ^ p <= yi * y / 2 ^ p)%Z by (split; [apply Z.div_pos; nia|apply Z.div_le_mono; nia]).
  apply IH; try assumption. nia.
Qed.

Lemma general_exp_mono x y p : (0 <= x <= y)%Z -> (0 <= p)%Z -> (general_exp x p <= general_exp y p)%Z.
Proof.
  intros Hx Hp. unfold general_exp.
  assert (general_exp_loop general_exp_coefs x p x 0 <= general_exp_loop general_exp_coefs y p y 0)%Z.
  { apply general_exp_loop_mono; try lia. vm_compute. reflexivity. }
  assert (general_exp_loop general_exp_coefs x p x 0 / general_exp_divisor <= general_exp_loop general_exp_coefs y p y 0 / general_exp_divisor)%Z
    by (apply Z.div_le_mono; [reflexivity|assumption]). lia.
Qed.

(* at 16 nothing is truncated *)
Fixpoint exact_loop (l : list Z) (k acc : Z) : Z := match l with [] => acc | c :: l' => exact_loop l' (k * 16) (acc + k * 16 * c) end%Z.
Lemma general_exp_loop_16 l p : (0 <= p)%Z -> forall k acc,
  general_exp_loop l (16 * 2 ^ p) p (k * 2 ^ p) (acc * 2 ^ p) = (exact_loop l k acc * 2 ^ p)%Z.
Proof.
  intros Hp. assert (0 < 2 ^ p)%Z by (apply Z.pow_pos_nonneg; lia).
  induction l as [|c l IH]; intros k acc; cbn [general_exp_loop exact_loop]; [reflexivity|]. cbv zeta.
  rewrite Z.shiftr_div_pow2 by exact Hp.
  replace (k * 2 ^ p * (16 * 2 ^ p))%Z with ((k * 16 * 2 ^ p) * 2 ^ p)%Z by ring. rewrite Z.div_mul by lia.
  rewrite <- IH. f_equal. ring.
Qed.

Lemma general_exp_16 x p : (0 <= p)%Z -> (16 * 2 ^ p <= x)%Z -> (8000000 * 2 ^ p <= general_exp x p)%Z.
Proof.
  intros Hp Hx. assert (0 < 2 ^ p)%Z by (apply Z.pow_pos_nonneg; lia).
  eapply Z.le_trans; [|apply general_exp_mono with (x := (16 * 2 ^ p)%Z); lia].
  unfold general_exp. rewrite (general_exp_loop_16 general_exp_coefs p Hp 16 0 : general_exp_loop general_exp_coefs (16 * 2 ^ p) p (16 * 2 ^ p) 0 = _).
  assert (8000001 * general_exp_divisor <= exact_loop general_exp_coefs 16 0)%Z by (vm_compute; discriminate).
  assert (8000001 * 2 ^ p <= exact_loop general_exp_coefs 16 0 * 2 ^ p / general_exp_divisor)%Z.
  { apply Z.div_le_lower_bound; [reflexivity|]. nia. }
  rewrite Z.shiftl_mul_pow2 by exact Hp. change ONE with 1%Z. lia.
Qed.

Lemma exp_15_9 : 8000001 <= exp (159 / 10).
Proof.
  assert (exp_lower_cert 159 10 70 8000001 1 = true) as C by (vm_cast_no_check (eq_refl true)).
  apply exp_lower in C. lra.
Qed.

Lemma big_ratio g P : (0 < P)%Z -> (8000000 * P <= g)%Z -> 8000000 <= IZR g / IZR P.
Proof.
  intros HP Q. apply IZR_le in Q. rewrite mult_IZR in Q. apply IZR_lt in HP. apply Rmult_le_reg_r with (IZR P); [exact HP|].
  replace (IZR g / IZR P * IZR P) with (IZR g) by (field; lra). exact Q.
Qed.

Lemma power_large bn bd en ed r p : (0 < bd <= bn)%Z -> (0 <= en)%Z -> (0 < ed)%Z -> (en <= 1000000 * ed)%Z ->
  power bn bd en ed = Ok (r, p) -> 16 <= IZR en / IZR ed * (ln (IZR bn / IZR bd) + 8 / F) ->
  8000000 <= IZR r / IZR (2 ^ p).
Proof.
  intros Hb He Hd Hed E Hlim. pose proof F_pos as HF. pose proof FIXED_1_pos.
  destruct (power_exponent _ _ _ _ _ _ Hb He Hd E) as (x & Hx & Lx0 & Ux & Hl0 & Hc).
  assert (0 < IZR ed) as Hed' by (apply IZR_lt; lia).
  assert (0 <= IZR en) as Hen by (apply IZR_le; lia).
  set (e := IZR en / IZR ed) in *. set (l := ln (IZR bn / IZR bd)) in *.
  assert (0 <= e <= 1000000) as He0.
  { unfold e. split; [apply Rmult_le_pos; [lra|]; left; apply Rinv_0_lt_compat; exact Hed'|].
    apply Rmult_le_reg_r with (IZR ed); [lra|]. replace (IZR en / IZR ed * IZR ed) with (IZR en) by (field; lra).
    rewrite <- mult_IZR. apply IZR_le. exact Hed. }
  destruct Hc as [(Hc & -> & ->)|(Hc & Hp & -> & _)].
  - pose proof (optimal_exp_lower x (conj Hx Hc)) as OE. rewrite <- FIXED_1_pow.
    assert (2 ^ 100 <= F) as HF2 by (rewrite F_pow; apply Rle_pow; [lra|lia]).
    assert (10000000000 <= F) as HF3.
    { eapply Rle_trans; [|exact HF2]. rewrite (pow_IZR 2 100). apply IZR_le. vm_compute. discriminate. }
    assert (159 / 10 <= IZR x / F) as Hx16.
    { apply Rmult_le_reg_r with F; [lra|]. replace (IZR x / F * F) with (IZR x) by (field; lra).
      assert (16 * F - 8 * e <= F * (e * l)) as M.
      { apply Rmult_le_compat_l with (r := F) in Hlim; [|lra].
        replace (F * (e * (l + 8 / F))) with (F * (e * l) + 8 * e) in Hlim by (field; lra). lra. }
      destruct (Rle_or_lt (e * l) 20); [|nra]. lra. }
    apply exp_le_compat in Hx16. pose proof exp_15_9 as X.
    apply Rmult_le_reg_r with F; [lra|]. replace (IZR (optimal_exp x) / F * F) with (IZR (optimal_exp x)) by (field; lra).
    eapply Rle_trans; [|exact OE].
    assert (/ 2 ^ 115 <= / 2 ^ 30) as Hq. { apply Rinv_le_contravar; [apply pow_lt; lra|apply Rle_pow; [lra|lia]]. }
    assert (/ 2 ^ 30 * 8000001 <= 1 / 100).
    { apply Rmult_le_reg_l with (2 ^ 30); [apply pow_lt; lra|]. rewrite <- Rmult_assoc, Rinv_r by (apply pow_nonzero; lra).
      rewrite (pow_IZR 2 30). change (2 ^ Z.of_nat 30)%Z with 1073741824%Z. lra. }
    pose proof (inv_pow2_pos 115) as P115.
    remember (/ 2 ^ 115) as q eqn:Eq. clear Eq. remember (/ 2 ^ 30) as q' eqn:Eq'. clear Eq'.
    assert (8000000 <= exp (IZR x / F) * (1 - q)).
    { apply Rle_trans with (8000001 * (1 - q)); [lra|]. apply Rmult_le_compat_r; lra. }
    replace (F * exp (IZR x / F) * (1 - q)) with (exp (IZR x / F) * (1 - q) * F) by ring. apply Rmult_le_compat_r; lra.
  - assert (0 < 2 ^ p)%Z as P2 by (apply Z.pow_pos_nonneg; lia).
    assert (0 < 2 ^ (127 - p))%Z as P3 by (apply Z.pow_pos_nonneg; lia).
    assert (16 * 2 ^ p <= x / 2 ^ (127 - p))%Z as G.
    { apply Z.div_le_lower_bound; [lia|]. rewrite OEM_eq, FIXED_1_pow in Hc.
      replace (2 ^ (127 - p) * (16 * 2 ^ p))%Z with (16 * (2 ^ (127 - p) * 2 ^ p))%Z by ring.
      rewrite <- Z.pow_add_r by lia. replace (127 - p + p)%Z with 127%Z by lia. exact Hc. }
    pose proof (general_exp_16 _ p (proj1 Hp) G) as Q. clear Hc. revert Q. generalize (general_exp (x / 2 ^ (127 - p)) p). intros g Q. apply big_ratio; assumption.
Qed.
