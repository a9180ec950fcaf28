(* The fixed-point functions compared with real exp, ln and powers. *)
From Coq Require Import ZArith List Lia Bool Reals Lra String.
From Verif Require Import Res FormulaConsts FormulaModel FormulaInt FormulaQuotes RealTools.
Import ListNotations.
Local Open Scope R_scope.

Notation F := (IZR FIXED_1).
Lemma F_pos : 0 < F. Proof. apply IZR_lt. reflexivity. Qed.
Lemma F_pow : F = 2 ^ 127. Proof. rewrite FIXED_1_pow. rewrite (pow_IZR 2 127). reflexivity. Qed.

(* ---------- factorials ---------- *)
Fixpoint zfact (n : nat) : Z := match n with O => 1%Z | S k => (Z.of_nat n * zfact k)%Z end.
Lemma zfact_pos n : (0 < zfact n)%Z. Proof. induction n; cbn [zfact]; lia. Qed.
Lemma zfact_fact n : IZR (zfact n) = INR (fact n).
Proof.
  induction n as [|n IH]; [reflexivity|]. cbn [zfact].
  rewrite fact_simpl, mult_INR, mult_IZR, IH, <- INR_IZR_INZ. reflexivity.
Qed.

(* coefficients D/k!, D/(k+1)!, ... *)
Fixpoint coefs_ok (l : list Z) (k : nat) (D : Z) : bool :=
  match l with [] => true | c :: l' => (c * zfact k =? D)%Z && coefs_ok l' (S k) D && (0 <=? c)%Z end.

Lemma optimal_exp_coefs_ok : coefs_ok optimal_exp_coefs 2 optimal_exp_divisor = true.
Proof. vm_compute. reflexivity. Qed.
Lemma general_exp_coefs_ok : coefs_ok general_exp_coefs 2 general_exp_divisor = true.
Proof. vm_compute. reflexivity. Qed.

(* Both exponential series are this loop, with P = 2^precision *)
Fixpoint series_loop (P : Z) (l : list Z) (y z acc : Z) : Z :=
  match l with
  | [] => acc
  | c :: l' => series_loop P l' y (z * y / P) (acc + z * y / P * c)
  end%Z.

Lemma optimal_exp_series l : forall y z acc, optimal_exp_lo_loop l y z acc = series_loop FIXED_1 l y z acc.
Proof. induction l as [|c l IH]; intros; cbn [optimal_exp_lo_loop series_loop]; [reflexivity|]. apply IH. Qed.

Lemma general_exp_series l p : (0 <= p)%Z -> forall x xi acc, general_exp_loop l x p xi acc = series_loop (2 ^ p) l x xi acc.
Proof.
  intros Hp. induction l as [|c l IH]; intros; cbn [general_exp_loop series_loop]; [reflexivity|].
  cbv zeta. rewrite Z.shiftr_div_pow2 by exact Hp. apply IH.
Qed.

Lemma series_loop_upper P l : (0 < P)%Z -> forall y D k z acc, (0 <= y)%Z -> (0 <= z)%Z -> coefs_ok l (S k) D = true ->
  IZR z <= IZR P * (IZR y / IZR P) ^ k ->
  IZR (series_loop P l y z acc) <=
    IZR acc + IZR P * IZR D * (sum_f_R0 (eterm (IZR y / IZR P)) (k + List.length l) - sum_f_R0 (eterm (IZR y / IZR P)) k).
Proof.
  intros HP y D. assert (0 < IZR P) as HP' by (apply IZR_lt; exact HP).
  induction l as [|c l IH]; intros k z acc Hy Hz Hc Hb; cbn [series_loop List.length].
  - rewrite Nat.add_0_r. lra.
  - cbn [coefs_ok] in Hc. rewrite !andb_true_iff in Hc. destruct Hc as [[H1 H2] H3].
    apply Z.eqb_eq in H1. apply Z.leb_le in H3.
    set (u := IZR y / IZR P) in *.
    assert (0 <= IZR y) by (apply IZR_le; exact Hy).
    assert (0 <= u) as Hu.
    { unfold u. apply Rmult_le_pos; [assumption|]. left. apply Rinv_0_lt_compat. exact HP'. }
    assert (0 <= z * y / P)%Z as Hz' by (apply Z.div_pos; nia).
    assert (IZR (z * y / P) <= IZR P * u ^ (S k)) as Hb'.
    { eapply Rle_trans; [apply IZR_div_le; exact HP|]. rewrite mult_IZR.
      replace (IZR z * IZR y / IZR P) with (IZR z * u) by (unfold u; field; lra).
      cbn [pow]. nra. }
    specialize (IH (S k) (z * y / P)%Z (acc + z * y / P * c)%Z Hy Hz' H2 Hb').
    eapply Rle_trans; [exact IH|].
    replace (S k + List.length l)%nat with (k + S (List.length l))%nat by lia.
    cbn [sum_f_R0]. rewrite plus_IZR, mult_IZR.
    assert (IZR (z * y / P) * IZR c <= IZR P * IZR D * eterm u (S k)) as Hterm.
    { assert (0 <= IZR c) by (apply IZR_le; exact H3).
      apply Rle_trans with (IZR P * u ^ S k * IZR c); [apply Rmult_le_compat_r; assumption|].
      unfold eterm. rewrite <- H1, mult_IZR, zfact_fact.
      pose proof (INR_fact_neq_0 (S k)). right. field; assumption. }
    lra.
Qed.

Lemma series_upper P l D y : (0 < P)%Z -> (0 <= y)%Z -> (0 < D)%Z -> coefs_ok l 2 D = true ->
  IZR (series_loop P l y y 0 / D + y + P) <= IZR P * exp (IZR y / IZR P).
Proof.
  intros HP Hy HD Hc.
  assert (0 < IZR P) as HP' by (apply IZR_lt; exact HP).
  assert (0 < IZR D) as HD' by (apply IZR_lt; exact HD).
  assert (0 <= IZR y) by (apply IZR_le; exact Hy).
  assert (0 <= IZR y / IZR P) as Hu.
  { apply Rmult_le_pos; [assumption|]. left. apply Rinv_0_lt_compat. exact HP'. }
  pose proof (series_loop_upper P l HP y D 1 y 0%Z Hy Hy Hc) as S.
  rewrite pow_1 in S. specialize (S ltac:(right; field; lra)).
  set (u := IZR y / IZR P) in *.
  rewrite !plus_IZR.
  pose proof (IZR_div_le (series_loop P l y y 0) D HD) as Q.
  pose proof (exp_taylor_le u (1 + List.length l) Hu) as T.
  assert (IZR (series_loop P l y y 0) / IZR D <= IZR P * (sum_f_R0 (eterm u) (1 + List.length l) - sum_f_R0 (eterm u) 1)) as S2.
  { apply Rmult_le_reg_r with (IZR D); [assumption|]. unfold Rdiv.
    rewrite Rmult_assoc, Rinv_l, Rmult_1_r by lra. lra. }
  assert (sum_f_R0 (eterm u) 1 = 1 + u) as E1.
  { cbn [sum_f_R0]. unfold eterm. simpl. field. }
  rewrite E1 in S2.
  assert (IZR y = IZR P * u) as Ey by (unfold u; field; lra).
  rewrite Ey. nra.
Qed.

(* ---------- optimal_exp ---------- *)
Fixpoint bits_sum (l : list (Z * Z * Z)) (x : Z) : Z :=
  match l with
  | [] => 0
  | (m, n, d) :: l' => ((if Z.land x m =? 0 then 0 else m) + bits_sum l' x)%Z
  end.

Lemma mod_pow2_succ x k : (0 <= k)%Z ->
  (x mod 2 ^ (k + 1) = x mod 2 ^ k + (if Z.land x (2 ^ k) =? 0 then 0 else 2 ^ k))%Z.
Proof.
  intros Hk. assert (0 < 2 ^ k)%Z by (apply Z.pow_pos_nonneg; lia).
  rewrite Z.pow_add_r by lia. change (2 ^ 1)%Z with 2%Z.
  rewrite Z.rem_mul_r by lia. f_equal.
  assert (Z.testbit x k = ((x / 2 ^ k) mod 2 =? 1)%Z) as T.
  { rewrite Z.testbit_odd, Z.shiftr_div_pow2 by lia.
    rewrite Zmod_odd. destruct (Z.odd _); reflexivity. }
  assert ((Z.land x (2 ^ k) =? 0)%Z = negb (Z.testbit x k)) as T2.
  { destruct (Z.testbit x k) eqn:E; cbn [negb].
    - apply Z.eqb_neq. intros C. assert (Z.testbit (Z.land x (2 ^ k)) k = true) as D.
      { rewrite Z.land_spec, E, Z.pow2_bits_true by lia. reflexivity. }
      rewrite C, Z.bits_0 in D. discriminate.
    - apply Z.eqb_eq. apply Z.bits_inj'. intros i Hi. rewrite Z.land_spec, Z.bits_0, Z.pow2_bits_eqb by lia.
      destruct (Z.eqb_spec k i); [subst; rewrite E; reflexivity|apply andb_false_r]. }
  rewrite T2, T. pose proof (Z.mod_pos_bound (x / 2 ^ k) 2 ltac:(lia)).
  destruct (Z.eqb_spec ((x / 2 ^ k) mod 2) 1) as [->|N]; cbn [negb]; [lia|].
  assert ((x / 2 ^ k) mod 2 = 0)%Z as -> by lia. lia.
Qed.

Lemma optimal_exp_decompose x : (0 <= x < OPT_EXP_MAX_VAL)%Z ->
  (x mod optimal_exp_mod + bits_sum optimal_exp_hi x = x)%Z.
Proof.
  intros H. rewrite OEM_eq, FIXED_1_pow in H. change (16 * 2 ^ 127)%Z with (2 ^ 131)%Z in H.
  cbv delta [bits_sum optimal_exp_hi] beta iota. fold bits_sum.
  change optimal_exp_mod with (2 ^ 124)%Z.
  change 0x10000000000000000000000000000000%Z with (2 ^ 124)%Z.
  change 0x20000000000000000000000000000000%Z with (2 ^ (124 + 1))%Z.
  change 0x40000000000000000000000000000000%Z with (2 ^ (124 + 1 + 1))%Z.
  change 0x80000000000000000000000000000000%Z with (2 ^ (124 + 1 + 1 + 1))%Z.
  change 0x100000000000000000000000000000000%Z with (2 ^ (124 + 1 + 1 + 1 + 1))%Z.
  change 0x200000000000000000000000000000000%Z with (2 ^ (124 + 1 + 1 + 1 + 1 + 1))%Z.
  change 0x400000000000000000000000000000000%Z with (2 ^ (124 + 1 + 1 + 1 + 1 + 1 + 1))%Z.
  rewrite !Z.add_assoc. rewrite <- !mod_pow2_succ by lia.
  rewrite Z.add_0_r. apply Z.mod_small. exact H.
Qed.

(* the ratios are lower bounds of e^(mask/F) *)
Definition exp_hi_cert (t : Z * Z * Z) : bool :=
  let '(m, n, d) := t in
  ((m =? m / 2 ^ 124 * 2 ^ 124) && (0 <? n) && (0 <? d))%Z && exp_lower_cert (m / 2 ^ 124) 8 90 n d.
Lemma exp_hi_certs : forallb exp_hi_cert optimal_exp_hi = true.
Proof. vm_compute. reflexivity. Qed.

Lemma exp_hi_bound m n d : exp_hi_cert (m, n, d) = true -> (0 < d)%Z /\ (0 < n)%Z /\ IZR n / IZR d <= exp (IZR m / F).
Proof.
  unfold exp_hi_cert. intros H. rewrite !andb_true_iff in H. destruct H as [[[H1 H2] H3] H4].
  apply Z.eqb_eq in H1. apply Z.ltb_lt in H2, H3. repeat split; try assumption.
  apply exp_lower in H4. eapply Rle_trans; [exact H4|]. right. f_equal.
  rewrite H1 at 2. rewrite mult_IZR. rewrite F_pow.
  replace (IZR (2 ^ 124)) with (2 ^ 124) by (rewrite (pow_IZR 2 124); reflexivity).
  change 127%nat with (124 + 3)%nat. rewrite pow_add.
  assert (2 ^ 124 <> 0) by (apply pow_nonzero; lra).
  field; assumption.
Qed.

Lemma exp_hi_upper l : forallb exp_hi_cert l = true -> forall x acc, (0 <= acc)%Z ->
  IZR (optimal_exp_hi_loop l x acc) <= IZR acc * exp (IZR (bits_sum l x) / F).
Proof.
  induction l as [|[[m n] d] l IH]; cbn [forallb optimal_exp_hi_loop bits_sum]; intros H x acc Ha.
  - unfold Rdiv. rewrite Rmult_0_l, exp_0. lra.
  - apply andb_true_iff in H. destruct H as [H1 H2].
    apply exp_hi_bound in H1. destruct H1 as (Hd & Hn & H1).
    assert (0 <= IZR acc) by (apply IZR_le; exact Ha). pose proof F_pos.
    destruct (Z.land x m =? 0)%Z; cbn [negb].
    + rewrite Z.add_0_l. apply IH; assumption.
    + eapply Rle_trans; [apply IH; [assumption|apply Z.div_pos; nia]|].
      rewrite plus_IZR. replace ((IZR m + IZR (bits_sum l x)) / F) with (IZR m / F + IZR (bits_sum l x) / F) by (field; lra).
      rewrite exp_plus.
      rewrite <- Rmult_assoc. apply Rmult_le_compat_r; [left; apply exp_pos|].
      eapply Rle_trans; [apply IZR_div_le; exact Hd|]. rewrite mult_IZR.
      unfold Rdiv in *. rewrite Rmult_assoc. apply Rmult_le_compat_l; assumption.
Qed.

Lemma optimal_exp_upper x : (0 <= x < OPT_EXP_MAX_VAL)%Z -> IZR (optimal_exp x) <= F * exp (IZR x / F).
Proof.
  intros H. unfold optimal_exp. cbv zeta.
  assert (0 <= x mod optimal_exp_mod)%Z as Hy by (apply Z.mod_pos_bound; reflexivity).
  pose proof (series_upper FIXED_1 optimal_exp_coefs optimal_exp_divisor (x mod optimal_exp_mod)
    eq_refl Hy eq_refl optimal_exp_coefs_ok) as S.
  rewrite <- optimal_exp_series in S.
  eapply Rle_trans; [apply exp_hi_upper; [exact exp_hi_certs|]|].
  - assert (0 <= optimal_exp_lo_loop optimal_exp_coefs (x mod optimal_exp_mod) (x mod optimal_exp_mod) 0 / optimal_exp_divisor)%Z.
    { apply Z.div_pos; [|reflexivity]. apply exp_lo_loop_ge; try assumption. vm_compute. reflexivity. }
    pose proof FIXED_1_pos. lia.
  - eapply Rle_trans; [apply Rmult_le_compat_r; [left; apply exp_pos|exact S]|].
    rewrite Rmult_assoc, <- exp_plus. right. f_equal. f_equal.
    rewrite <- (optimal_exp_decompose x H) at 3. rewrite plus_IZR. field. pose proof F_pos. lra.
Qed.

(* ---------- general_exp ---------- *)
Lemma general_exp_upper x p : (0 <= x)%Z -> (0 <= p)%Z ->
  IZR (general_exp x p) <= IZR (2 ^ p) * exp (IZR x / IZR (2 ^ p)).
Proof.
  intros Hx Hp. unfold general_exp. rewrite Z.shiftl_mul_pow2 by assumption.
  change ONE with 1%Z. rewrite Z.mul_1_l, general_exp_series by assumption.
  apply series_upper; try assumption.
  - apply Z.pow_pos_nonneg; lia.
  - reflexivity.
  - apply general_exp_coefs_ok.
Qed.

(* ---------- optimal_log ---------- *)
(* each divisor d satisfies F/d <= e^(-a/F) (1 + 1/F) *)
Definition log_hi_cert (t : Z * Z * Z) : bool :=
  let '(t, a, d) := t in
  ((t =? d) && (0 <? d) && (a =? a / 2 ^ 119 * 2 ^ 119) && (0 <=? a))%Z &&
  exp_neg_lower_cert (a / 2 ^ 119) 256 15 (FIXED_1 * FIXED_1) (d * (FIXED_1 + 1)).
Lemma log_hi_certs : forallb log_hi_cert optimal_log_hi = true.
Proof. vm_compute. reflexivity. Qed.

Lemma log_hi_bound t a d : log_hi_cert (t, a, d) = true -> t = d /\ (0 < d)%Z /\ (0 <= a)%Z /\
   IZR a - 1 <= F * ln (IZR d / F).
Proof.
  unfold log_hi_cert. intros H. rewrite !andb_true_iff in H. destruct H as [[[[H1 H2] H3] H4] H5].
  apply Z.eqb_eq in H1, H3. apply Z.ltb_lt in H2. apply Z.leb_le in H4. repeat split; try assumption.
  apply exp_neg_lower in H5.
  assert (IZR (a / 2 ^ 119) / 256 = IZR a / F) as E.
  { rewrite H3 at 2. rewrite mult_IZR. rewrite F_pow.
    replace (IZR (2 ^ 119)) with (2 ^ 119) by (rewrite (pow_IZR 2 119); reflexivity).
    change 127%nat with (119 + 8)%nat. rewrite pow_add.
    assert (2 ^ 119 <> 0) by (apply pow_nonzero; lra).
    replace (2 ^ 8) with 256 by lra. field; assumption. }
  rewrite E in H5. clear E H3.
  assert (0 < IZR d) as Hd by (apply IZR_lt; exact H2). pose proof F_pos as HF.
  rewrite !mult_IZR, plus_IZR in H5.
  assert (1 + / F <= exp (/ F)) as X by (apply Rlt_le, exp_ineq1; apply Rinv_neq_0_compat; lra).
  assert (0 < / F) as HiF by (apply Rinv_0_lt_compat; exact HF).
  assert (F / IZR d <= exp (/ F - IZR a / F)) as Y.
  { unfold Rminus. rewrite exp_plus.
    replace (F / IZR d) with ((1 + / F) * (F * F / (IZR d * (F + 1)))) by (field; lra).
    apply Rmult_le_compat; [lra| |lra|exact H5].
    apply Rmult_le_pos; [nra|]. left. apply Rinv_0_lt_compat. nra. }
  apply ln_le_compat in Y; [|apply Rdiv_lt_0_compat; lra].
  rewrite ln_exp in Y.
  assert (ln (F / IZR d) = - ln (IZR d / F)) as L.
  { rewrite <- ln_Rinv by (apply Rdiv_lt_0_compat; lra). f_equal. field. lra. }
  rewrite L in Y.
  apply Rmult_le_compat_l with (r := F) in Y; [|lra].
  replace (F * (/ F - IZR a / F)) with (1 - IZR a) in Y by (field; lra). lra.
Qed.

Lemma log_hi_upper l : forallb log_hi_cert l = true -> forall x acc, (FIXED_1 <= x)%Z -> log_hi_ok l = true ->
  let '(x', acc') := optimal_log_hi_loop l x acc in
  (FIXED_1 <= x')%Z /\ IZR acc' + F * ln (IZR x' / F) <= IZR acc + F * ln (IZR x / F) + INR (List.length l).
Proof.
  pose proof F_pos as HF.
  induction l as [|[[t a] d] l IH]; cbn [forallb optimal_log_hi_loop]; intros H x acc Hx Hok.
  - cbn [List.length INR]. split; [exact Hx|lra].
  - apply andb_true_iff in H. destruct H as [H1 H2].
    apply log_hi_bound in H1. destruct H1 as (-> & Hd & Ha & H1).
    cbn [log_hi_ok forallb] in Hok. apply andb_true_iff in Hok. destruct Hok as [_ Hok].
    change (List.length ((d, a, d) :: l)) with (S (List.length l)). rewrite S_INR.
    destruct (Z.leb_spec d x) as [L|L].
    + assert (FIXED_1 <= x * FIXED_1 / d)%Z as Hx' by (apply Z.div_le_lower_bound; [lia|]; pose proof FIXED_1_pos; nia).
      specialize (IH H2 (x * FIXED_1 / d)%Z (acc + a)%Z Hx' Hok).
      destruct (optimal_log_hi_loop l (x * FIXED_1 / d) (acc + a)) as [x' acc'].
      destruct IH as [I1 I2]. split; [exact I1|].
      rewrite plus_IZR in I2.
      assert (0 < IZR d) as Hd' by (apply IZR_lt; exact Hd).
      assert (0 < IZR x) as Hx0 by (apply IZR_lt; pose proof FIXED_1_pos; lia).
      assert (0 < IZR (x * FIXED_1 / d)) as Hx1 by (apply IZR_lt; pose proof FIXED_1_pos; lia).
      assert (ln (IZR (x * FIXED_1 / d) / F) <= ln (IZR x / F) - ln (IZR d / F)) as K.
      {
        assert (ln (IZR x / F) - ln (IZR d / F) = ln (IZR x / IZR d)) as ->.
        { replace (IZR x / IZR d) with ((IZR x / F) * / (IZR d / F)) by (field; lra).
          rewrite ln_mult, ln_Rinv; try (apply Rdiv_lt_0_compat; lra); [ring|].
          apply Rinv_0_lt_compat. apply Rdiv_lt_0_compat; lra. }
        apply ln_le_compat; [apply Rdiv_lt_0_compat; lra|].
        pose proof (IZR_div_le (x * FIXED_1) d Hd) as Q. rewrite mult_IZR in Q.
        apply Rmult_le_reg_r with F; [lra|].
        unfold Rdiv in *. rewrite Rmult_assoc, Rinv_l, Rmult_1_r by lra. nra. }
      nra.
    + specialize (IH H2 x acc Hx Hok).
      destruct (optimal_log_hi_loop l x acc) as [x' acc']. destruct IH as [I1 I2]. split; [exact I1|].
      lra.
Qed.

(* the low series: (n_i, d_i) with n_i (2i+1) <= d_i and d_i = 2 F (i+1) *)
Fixpoint log_lo_cert (l : list (Z * Z)) (i : nat) : bool :=
  match l with
  | [] => true
  | (n, d) :: l' => ((n * Z.of_nat (2 * i + 1) <=? d) && (d =? FIXED_1 * Z.of_nat (2 * i + 2)))%Z && log_lo_cert l' (S i)
  end.
Lemma log_lo_certs : log_lo_cert optimal_log_lo 0 = true. Proof. vm_compute. reflexivity. Qed.

Lemma log_lo_upper l ymax : log_lo_ok l ymax = true -> forall i y w z acc, log_lo_cert l i = true ->
  (0 <= y <= ymax)%Z -> (0 <= w)%Z -> (0 <= z)%Z ->
  IZR w <= F * (IZR y / F) ^ 2 -> IZR z <= F * (IZR y / F) ^ (2 * i + 1) ->
  IZR (optimal_log_lo_loop l y w z acc) <= IZR acc + F * (lsum (i + List.length l) (IZR y / F) - lsum i (IZR y / F)).
Proof.
  pose proof F_pos as HF.
  induction l as [|[n d] l IH]; cbn [log_lo_ok forallb optimal_log_lo_loop log_lo_cert];
    intros Hok i y w z acc Hc Hy Hw Hz Bw Bz.
  - cbn [List.length]. rewrite Nat.add_0_r. lra.
  - rewrite !andb_true_iff in Hok. destruct Hok as [[K1 K2] K3].
    apply Z.leb_le in K1. apply Z.ltb_lt in K2.
    rewrite !andb_true_iff in Hc. destruct Hc as [[C1 C2] C3].
    apply Z.leb_le in C1. apply Z.eqb_eq in C2.
    set (u := IZR y / F) in *.
    assert (0 <= IZR y) by (apply IZR_le; lia).
    assert (0 <= u) as Hu. { unfold u. apply Rmult_le_pos; [lra|]. left. apply Rinv_0_lt_compat. exact HF. }
    assert (IZR y = F * u) as Ey by (unfold u; field; lra).
    assert (0 <= IZR z) as Hz' by (apply IZR_le; exact Hz).
    assert (0 <= IZR w) as Hw' by (apply IZR_le; exact Hw).
    assert (0 <= u ^ (2 * i + 1)) as Hp by (apply pow_le; exact Hu).
    assert (0 <= u ^ 2) as Hp2 by (apply pow_le; exact Hu).
    assert (IZR (z * w / FIXED_1) <= F * u ^ (2 * S i + 1)) as Bz'.
    { eapply Rle_trans; [apply IZR_div_le; reflexivity|]. rewrite mult_IZR.
      apply Rmult_le_reg_r with F; [lra|]. unfold Rdiv. rewrite Rmult_assoc, Rinv_l, Rmult_1_r by lra.
      replace (2 * S i + 1)%nat with (2 * i + 1 + 2)%nat by lia. rewrite pow_add.
      replace (F * (u ^ (2 * i + 1) * u ^ 2) * F) with ((F * u ^ (2 * i + 1)) * (F * u ^ 2)) by ring.
      apply Rmult_le_compat; assumption. }
    specialize (IH K3 (S i) y w (z * w / FIXED_1)%Z (acc + z * (n - y) / d)%Z C3 Hy Hw).
    assert (0 <= z * w / FIXED_1)%Z as Hz2 by (apply Z.div_pos; [nia|reflexivity]).
    specialize (IH Hz2 Bw Bz').
    eapply Rle_trans; [exact IH|]. cbn [List.length].
    replace (S i + List.length l)%nat with (i + S (List.length l))%nat by lia.
    rewrite plus_IZR.
    assert (0 < INR (2 * i + 1)) as P1 by (apply lt_0_INR; lia).
    assert (0 < INR (2 * i + 2)) as P2 by (apply lt_0_INR; lia).
    assert (IZR (z * (n - y) / d) <= F * (u ^ (2 * i + 1) / INR (2 * i + 1) - u ^ (2 * i + 2) / INR (2 * i + 2))) as T.
    { eapply Rle_trans; [apply IZR_div_le; exact K2|].
      rewrite mult_IZR, minus_IZR.
      assert (IZR d = F * INR (2 * i + 2)) as Ed by (rewrite C2, mult_IZR, <- INR_IZR_INZ; reflexivity).
      assert (0 < IZR d) as Hd by (apply IZR_lt; exact K2).
      assert (IZR n * INR (2 * i + 1) <= IZR d) as Cn.
      { apply IZR_le in C1. rewrite mult_IZR, <- INR_IZR_INZ in C1. exact C1. }
      assert (0 <= IZR n - IZR y) as Hny by (apply IZR_le in K1; assert (IZR y <= IZR ymax) by (apply IZR_le; lia); lra).
      apply Rle_trans with ((F * u ^ (2 * i + 1)) * (IZR n - IZR y) / IZR d).
      { unfold Rdiv. apply Rmult_le_compat_r; [left; apply Rinv_0_lt_compat; exact Hd|].
        apply Rmult_le_compat_r; assumption. }
      apply Rle_trans with ((F * u ^ (2 * i + 1)) * (/ INR (2 * i + 1) - u / INR (2 * i + 2))).
      { unfold Rdiv. rewrite Rmult_assoc. apply Rmult_le_compat_l; [nra|].
        apply Rmult_le_reg_r with (IZR d); [exact Hd|]. rewrite Rmult_assoc, Rinv_l, Rmult_1_r by lra.
        rewrite Rmult_minus_distr_r.
        apply Rplus_le_compat.
        - apply Rmult_le_reg_r with (INR (2 * i + 1)); [exact P1|].
          replace (/ INR (2 * i + 1) * IZR d * INR (2 * i + 1)) with (IZR d) by (field; lra). exact Cn.
        - right. f_equal. rewrite Ed, Ey. field. lra. }
      right. replace (u ^ (2 * i + 2)) with (u ^ (2 * i + 1) * u) by (rewrite !pow_add; simpl; ring). field. split; lra. }
    change (IZR y / F) with u.
    replace (lsum (S i) u) with (lsum i u + (u ^ (2 * i + 1) / INR (2 * i + 1) - u ^ (2 * i + 2) / INR (2 * i + 2))) by reflexivity.
    lra.
Qed.

Lemma optimal_log_upper x : (FIXED_1 <= x < OPT_LOG_MAX_VAL)%Z ->
  IZR (optimal_log x) <= F * ln (IZR x / F) + 8.
Proof.
  intros H. unfold optimal_log. pose proof F_pos as HF.
  pose proof (log_residual x 0 H) as R.
  pose proof (log_hi_upper optimal_log_hi log_hi_certs x 0%Z (proj1 H) log_hi_ok_true) as U.
  destruct (optimal_log_hi_loop optimal_log_hi x 0) as [x' acc]. cbn [fst snd] in *.
  destruct U as [U1 U2].
  assert (log_lo_ok optimal_log_lo (FIXED_1 / 255) = true) as L by (vm_compute; reflexivity).
  pose proof (log_lo_upper _ _ L 0 (x' - FIXED_1)%Z ((x' - FIXED_1) * (x' - FIXED_1) / FIXED_1)%Z (x' - FIXED_1)%Z acc
    log_lo_certs R) as Q.
  set (y := (x' - FIXED_1)%Z) in *.
  assert (0 <= y * y / FIXED_1)%Z as Hw by (apply Z.div_pos; [nia|reflexivity]).
  specialize (Q Hw (proj1 R)).
  assert (IZR (y * y / FIXED_1) <= F * (IZR y / F) ^ 2) as Bw.
  { eapply Rle_trans; [apply IZR_div_le; reflexivity|]. rewrite mult_IZR. right. field. lra. }
  assert (IZR y <= F * (IZR y / F) ^ (2 * 0 + 1)) as Bz by (simpl; right; field; lra).
  specialize (Q Bw Bz).
  assert (0 <= IZR y) by (apply IZR_le; lia).
  assert (0 <= IZR y / F) as Hu by (apply Rmult_le_pos; [lra|left; apply Rinv_0_lt_compat; exact HF]).
  pose proof (lsum_le_ln (0 + List.length optimal_log_lo) (IZR y / F) Hu) as LL.
  replace (1 + IZR y / F) with (IZR x' / F) in LL by (unfold y; rewrite minus_IZR; field; lra).
  change (INR (List.length optimal_log_hi)) with (INR 8) in U2.
  replace (INR 8) with 8 in U2 by (simpl; lra).
  replace (lsum 0 (IZR y / F)) with 0 in Q by reflexivity.
  nra.
Qed.

(* ---------- general_log ---------- *)
Lemma ln2_cert : IZR LN2_NUMERATOR / IZR LN2_DENOMINATOR <= ln 2.
Proof.
  assert (exp_lt_cert LN2_NUMERATOR LN2_DENOMINATOR 150 35 2 1 = true) as C by (vm_cast_no_check (eq_refl true)).
  apply exp_lt, Rlt_le, ln_le_compat in C; [|apply exp_pos]. rewrite ln_exp in C. replace (2 / 1) with 2 in C by field. exact C.
Qed.

Lemma general_log_loop_upper i : forall x acc, (FIXED_1 <= x)%Z ->
  IZR (general_log_loop i x acc) * ln 2 <= IZR acc * ln 2 + 2 ^ i * ln (IZR x / F).
Proof.
  pose proof F_pos as HF. pose proof FIXED_1_pos.
  induction i as [|i IH]; intros x acc Hx; cbn [general_log_loop]; cbv zeta.
  - assert (0 <= ln (IZR x / F)); [|simpl; lra].
    rewrite <- ln_1. apply ln_le_compat; [lra|]. apply Rmult_le_reg_r with F; [lra|].
    unfold Rdiv. rewrite Rmult_assoc, Rinv_l, Rmult_1_r, Rmult_1_l by lra. apply IZR_le. exact Hx.
  - assert (FIXED_1 <= x * x / FIXED_1)%Z as Hx2 by (apply Z.div_le_lower_bound; nia).
    assert (0 < IZR x) as Hx0 by (apply IZR_lt; lia).
    assert (0 < IZR (x * x / FIXED_1)) as Hx1 by (apply IZR_lt; lia).
    assert (ln (IZR (x * x / FIXED_1) / F) <= 2 * ln (IZR x / F)) as K.
    { replace (2 * ln (IZR x / F)) with (ln (IZR x / F) + ln (IZR x / F)) by ring.
      rewrite <- ln_mult by (apply Rdiv_lt_0_compat; lra).
      apply ln_le_compat; [apply Rdiv_lt_0_compat; lra|].
      pose proof (IZR_div_le (x * x) FIXED_1 ltac:(lia)) as Q. rewrite mult_IZR in Q.
      unfold Rdiv in *. assert (0 < / F) by (apply Rinv_0_lt_compat; exact HF). nra. }
    assert (0 < 2 ^ i) as H2 by (apply pow_lt; lra).
    destruct (Z.leb_spec FIXED_2 (x * x / FIXED_1)) as [L|L].
    + rewrite FIXED_2_eq in L.
      rewrite Z.shiftr_div_pow2 by lia. change (2 ^ 1)%Z with 2%Z.
      assert (FIXED_1 <= x * x / FIXED_1 / 2)%Z as Hx3 by (apply Z.div_le_lower_bound; lia).
      assert (0 < IZR (x * x / FIXED_1 / 2)) as Hx4 by (apply IZR_lt; lia).
      eapply Rle_trans; [apply IH; exact Hx3|].
      rewrite plus_IZR. rewrite Z.shiftl_mul_pow2 by lia. change ONE with 1%Z. rewrite Z.mul_1_l.
      replace (Z.of_nat (S i) - 1)%Z with (Z.of_nat i) by lia.
      rewrite <- (pow_IZR 2 i).
      assert (ln (IZR (x * x / FIXED_1 / 2) / F) <= ln (IZR (x * x / FIXED_1) / F) - ln 2) as K2.
      { replace (ln (IZR (x * x / FIXED_1) / F) - ln 2) with (ln (IZR (x * x / FIXED_1) / F) + ln (/ 2)) by (rewrite ln_Rinv by lra; ring).
        rewrite <- ln_mult; [|apply Rdiv_lt_0_compat; lra|lra].
        apply ln_le_compat; [apply Rdiv_lt_0_compat; lra|].
        pose proof (IZR_div_le (x * x / FIXED_1) 2 ltac:(lia)) as Q.
        unfold Rdiv in *. assert (0 < / F) by (apply Rinv_0_lt_compat; exact HF). nra. }
      cbn [pow]. nra.
    + eapply Rle_trans; [apply IH; exact Hx2|]. cbn [pow]. nra.
Qed.

Lemma general_log_upper x v : (FIXED_1 <= x < 2 ^ 256)%Z -> general_log x = Ok v ->
  IZR v <= F * ln (IZR x / F).
Proof.
  intros H E. pose proof F_pos as HF. pose proof FIXED_1_pos.
  assert (0 < IZR x) as Hx0 by (apply IZR_lt; lia).
  assert (exists y acc, (FIXED_1 <= y)%Z /\ (0 <= acc)%Z /\
     v = ((if FIXED_1 <? y then general_log_loop (Z.to_nat MAX_PRECISION) y acc else acc) * LN2_NUMERATOR / LN2_DENOMINATOR)%Z /\
     IZR acc * ln 2 + F * ln (IZR y / F) <= F * ln (IZR x / F)) as (y & acc & Hy & Hacc & Ev & B).
  { unfold general_log in E. destruct (Z.leb_spec FIXED_2 x) as [L|L].
    - rewrite FIXED_2_eq in L.
      assert (2 <= x / FIXED_1 < 2 ^ 256)%Z as Hq.
      { split; [apply Z.div_le_lower_bound; lia|apply Z.div_lt_upper_bound; lia]. }
      rewrite floor_log2_ok in E by lia. cbn [rbind] in E. apply Ok_inj in E. symmetry in E.
      set (c := Z.log2 (x / FIXED_1)) in *.
      assert (0 <= c)%Z as Hc by apply Z.log2_nonneg.
      pose proof (Z.log2_spec (x / FIXED_1) ltac:(lia)) as [S1 S2]. fold c in S1, S2.
      assert (0 < 2 ^ c)%Z as Hpc by (apply Z.pow_pos_nonneg; lia).
      assert (FIXED_1 * 2 ^ c <= x)%Z as Hxc.
      { pose proof (Z.mul_div_le x FIXED_1 ltac:(lia)). nia. }
      rewrite Z.shiftr_div_pow2 in E by lia.
      exists (x / 2 ^ c)%Z, (c * FIXED_1)%Z.
      assert (FIXED_1 <= x / 2 ^ c)%Z as Hy by (apply Z.div_le_lower_bound; nia).
      split; [exact Hy|]. split; [nia|]. split; [exact E|].
      rewrite mult_IZR.
      assert (0 < IZR (x / 2 ^ c)) by (apply IZR_lt; lia).
      assert (0 < IZR (2 ^ c)) as Hpc' by (apply IZR_lt; exact Hpc).
      assert (ln (IZR (x / 2 ^ c) / F) <= ln (IZR x / F) - ln (IZR (2 ^ c))) as K.
      { replace (ln (IZR x / F) - ln (IZR (2 ^ c))) with (ln (IZR x / F) + ln (/ IZR (2 ^ c))) by (rewrite ln_Rinv by lra; ring).
        rewrite <- ln_mult; [|apply Rdiv_lt_0_compat; lra|apply Rinv_0_lt_compat; lra].
        apply ln_le_compat; [apply Rdiv_lt_0_compat; lra|].
        pose proof (IZR_div_le x (2 ^ c) Hpc) as Q.
        unfold Rdiv in *. assert (0 < / F) by (apply Rinv_0_lt_compat; exact HF). nra. }
      assert (ln (IZR (2 ^ c)) = IZR c * ln 2) as L2.
      { rewrite <- (Z2Nat.id c Hc). rewrite <- pow_IZR. rewrite <- INR_IZR_INZ.
        rewrite <- Rpower_pow by lra. unfold Rpower. rewrite ln_exp. reflexivity. }
      rewrite L2 in K. nra.
    - cbn [rbind] in E. apply Ok_inj in E. symmetry in E. exists x, 0%Z.
      split; [lia|]. split; [lia|]. split; [exact E|]. lra. }
  assert (IZR (if (FIXED_1 <? y)%Z then general_log_loop (Z.to_nat MAX_PRECISION) y acc else acc) * ln 2
     <= F * ln (IZR x / F)) as G.
  { destruct (Z.ltb_spec FIXED_1 y) as [L|L].
    - eapply Rle_trans; [apply general_log_loop_upper; lia|].
      replace (2 ^ Z.to_nat MAX_PRECISION) with F; [exact B|]. rewrite F_pow. f_equal.
    - assert (y = FIXED_1) by lia. subst y.
      replace (F / F) with 1 in B by (field; lra). rewrite ln_1 in B. lra. }
  set (w := if (FIXED_1 <? y)%Z then _ else _) in *.
  assert (0 <= w)%Z as Hw.
  { unfold w. destruct (FIXED_1 <? y)%Z; [|exact Hacc].
    pose proof (general_log_loop_ge (Z.to_nat MAX_PRECISION) y acc). lia. }
  rewrite Ev. eapply Rle_trans; [apply IZR_div_le; reflexivity|].
  rewrite mult_IZR. eapply Rle_trans; [|exact G].
  unfold Rdiv. rewrite Rmult_assoc. apply Rmult_le_compat_l; [apply IZR_le; exact Hw|exact ln2_cert].
Qed.

(* ---------- power ---------- *)
Lemma power_upper bn bd en ed r p : (0 < bd <= bn)%Z -> (0 <= en)%Z -> (0 < ed)%Z ->
  power bn bd en ed = Ok (r, p) ->
  IZR r / IZR (2 ^ p) <= exp (IZR en / IZR ed * (ln (IZR bn / IZR bd) + 8 / F)).
Proof.
  intros Hb He Hd E. pose proof F_pos as HF. pose proof FIXED_1_pos.
  unfold power, rrequire, py_div in E.
  destruct (Z.ltb_spec bn MAX_NUM) as [Hn|Hn]; [|discriminate]. cbn [rbind] in E.
  destruct (Z.eqb_spec bd 0); [lia|]. cbn [rbind] in E.
  rewrite MAX_NUM_pow in Hn.
  assert (FIXED_1 <= bn * FIXED_1 / bd)%Z as B1 by (apply Z.div_le_lower_bound; nia).
  assert (bn * FIXED_1 / bd < 2 ^ 256)%Z as B2.
  { apply Z.div_lt_upper_bound; [lia|]. rewrite FIXED_1_pow.
    change (2 ^ 256)%Z with (2 ^ 129 * 2 ^ 127)%Z. nia. }
  set (base := (bn * FIXED_1 / bd)%Z) in *.
  assert (0 < IZR bd) as Hbd by (apply IZR_lt; lia).
  assert (0 < IZR bn) as Hbn by (apply IZR_lt; lia).
  assert (0 < IZR base) as Hbase by (apply IZR_lt; lia).
  assert (ln (IZR base / F) <= ln (IZR bn / IZR bd)) as HL.
  { apply ln_le_compat; [apply Rdiv_lt_0_compat; lra|].
    pose proof (IZR_div_le (bn * FIXED_1) bd ltac:(lia)) as Q. fold base in Q. rewrite mult_IZR in Q.
    apply Rmult_le_reg_r with F; [lra|]. unfold Rdiv in *.
    rewrite Rmult_assoc, Rinv_l, Rmult_1_r by lra. lra. }
  assert (exists bl, (if (base <? OPT_LOG_MAX_VAL)%Z then Ok (optimal_log base) else general_log base) = Ok bl
          /\ (0 <= bl)%Z /\ IZR bl <= F * ln (IZR bn / IZR bd) + 8) as (bl & El & Hbl & Ubl).
  { destruct (Z.ltb_spec base OPT_LOG_MAX_VAL).
    - exists (optimal_log base). split; [reflexivity|]. split; [apply optimal_log_nonneg; lia|].
      pose proof (optimal_log_upper base ltac:(lia)). nra.
    - destruct (general_log_ok base ltac:(lia)) as (v & Ev & Hv). exists v. split; [exact Ev|]. split; [exact Hv|].
      pose proof (general_log_upper base v ltac:(lia) Ev). nra. }
  rewrite El in E. cbn [rbind] in E. destruct (Z.eqb_spec ed 0); [lia|]. cbn [rbind] in E.
  assert (0 < IZR ed) as Hed by (apply IZR_lt; lia).
  assert (0 <= IZR en) as Hen by (apply IZR_le; lia).
  assert (0 <= bl * en / ed)%Z as Hx by (apply Z.div_pos; nia).
  set (x := (bl * en / ed)%Z) in *.
  assert (IZR x / F <= IZR en / IZR ed * (ln (IZR bn / IZR bd) + 8 / F)) as Ux.
  { pose proof (IZR_div_le (bl * en) ed Hd) as Q. fold x in Q. rewrite mult_IZR in Q.
    apply Rmult_le_reg_r with F; [lra|].
    replace (IZR x / F * F) with (IZR x) by (field; lra).
    eapply Rle_trans; [exact Q|].
    replace (IZR en / IZR ed * (ln (IZR bn / IZR bd) + 8 / F) * F) with ((F * ln (IZR bn / IZR bd) + 8) * (IZR en / IZR ed)) by (field; lra).
    unfold Rdiv. rewrite Rmult_assoc.
    apply Rmult_le_compat_r; [|exact Ubl]. apply Rmult_le_pos; [lra|]. left. apply Rinv_0_lt_compat. lra. }
  eapply Rle_trans; [|apply exp_le_compat; exact Ux].
  destruct (Z.ltb_spec x OPT_EXP_MAX_VAL) as [L|L].
  - apply Ok_inj in E. apply pair_equal_spec in E. destruct E as [<- <-]. change MAX_PRECISION with 127%Z. rewrite <- FIXED_1_pow.
    apply Rmult_le_reg_r with F; [lra|]. unfold Rdiv at 1. rewrite Rmult_assoc, Rinv_l, Rmult_1_r by lra.
    rewrite (Rmult_comm _ F). apply optimal_exp_upper. lia.
  - destruct (find_position_spec x) as (q & Eq & Hq). rewrite Eq in E. cbn [rbind] in E.
    apply Ok_inj in E. apply pair_equal_spec in E. destruct E as [<- <-].
    assert (0 <= q <= 127)%Z as Hq' by lia. change MAX_PRECISION with 127%Z.
    assert (0 < IZR (2 ^ q)) as Hpq by (apply IZR_lt; apply Z.pow_pos_nonneg; lia).
    apply Rmult_le_reg_r with (IZR (2 ^ q)); [lra|]. unfold Rdiv at 1. rewrite Rmult_assoc, Rinv_l, Rmult_1_r by lra.
    rewrite (Rmult_comm _ (IZR (2 ^ q))).
    eapply Rle_trans; [apply general_exp_upper; [apply Z.shiftr_nonneg; lia|lia]|].
    apply Rmult_le_compat_l; [lra|]. apply exp_le_compat.
    rewrite Z.shiftr_div_pow2 by lia.
    assert (0 < 2 ^ (127 - q))%Z as Hp2 by (apply Z.pow_pos_nonneg; lia).
    pose proof (IZR_div_le x (2 ^ (127 - q)) Hp2) as Q.
    assert (F = IZR (2 ^ (127 - q)) * IZR (2 ^ q)) as EF.
    { rewrite <- mult_IZR, <- Z.pow_add_r by lia. replace (127 - q + q)%Z with 127%Z by lia. rewrite FIXED_1_pow. reflexivity. }
    assert (0 < IZR (2 ^ (127 - q))) by (apply IZR_lt; exact Hp2).
    rewrite EF. apply Rmult_le_reg_r with (IZR (2 ^ q)); [lra|].
    replace (IZR x / (IZR (2 ^ (127 - q)) * IZR (2 ^ q)) * IZR (2 ^ q)) with (IZR x / IZR (2 ^ (127 - q))) by (field; lra).
    unfold Rdiv at 1. rewrite Rmult_assoc, Rinv_l, Rmult_1_r by lra. exact Q.
Qed.
