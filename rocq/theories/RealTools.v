(* Elementary bounds for exp and ln over Coq's reals, with integer certificates. *)
From Coq Require Import ZArith List Bool Lia Reals Lra.
Import ListNotations.
Local Open Scope R_scope.

Definition eterm (x : R) (k : nat) : R := / INR (fact k) * x ^ k.

Lemma exp_infinite_sum x : Un_cv (fun n => sum_f_R0 (eterm x) n) (exp x).
Proof. unfold exp, eterm. destruct (exist_exp x) as [l H]. exact H. Qed.

Lemma eterm_nonneg x k : 0 <= x -> 0 <= eterm x k.
Proof.
  intros H. unfold eterm. apply Rmult_le_pos.
  - left. apply Rinv_0_lt_compat. apply INR_fact_lt_0.
  - apply pow_le. exact H.
Qed.

(* partial sums of the exponential series are lower bounds on x >= 0 *)
Lemma exp_taylor_le x n : 0 <= x -> sum_f_R0 (eterm x) n <= exp x.
Proof.
  intros H. apply sum_incr; [apply exp_infinite_sum|]. intros k. apply eterm_nonneg. exact H.
Qed.

Lemma eterm_S x k : eterm x (S k) = eterm x k * x / INR (S k).
Proof.
  unfold eterm. cbn [pow]. rewrite fact_simpl, mult_INR.
  assert (INR (fact k) <> 0) by apply INR_fact_neq_0.
  assert (INR (S k) <> 0) by (apply not_0_INR; discriminate).
  field. split; assumption.
Qed.

(* alternating partial sums with an even number of terms are lower bounds at -s, 0 <= s <= 1 *)
Lemma exp_neg_taylor s n : 0 <= s <= 1 -> sum_f_R0 (eterm (- s)) (S (2 * n)) <= exp (- s) <= sum_f_R0 (eterm (- s)) (2 * n).
Proof.
  intros [H0 H1].
  assert (forall N, sum_f_R0 (eterm (- s)) N = sum_f_R0 (tg_alt (eterm s)) N) as E.
  { intros N. apply sum_eq. intros i _. unfold tg_alt, eterm.
    replace (- s) with (-1 * s) by ring. rewrite Rpow_mult_distr. ring. }
  rewrite !E. apply alternated_series_ineq.
  - intros k. rewrite eterm_S.
    pose proof (eterm_nonneg s k H0) as P.
    assert (1 <= INR (S k)) as Q by (rewrite S_INR; pose proof (pos_INR k); lra).
    apply Rmult_le_reg_r with (INR (S k)); [lra|].
    unfold Rdiv. rewrite Rmult_assoc, Rinv_l, Rmult_1_r by lra. nra.
  - intros eps He. destruct (cv_speed_pow_fact s eps He) as [N HN]. exists N. intros n' Hn'.
    specialize (HN n' Hn'). unfold eterm. unfold Rdiv in HN. rewrite Rmult_comm. exact HN.
  - intros eps He. destruct (exp_infinite_sum (- s) eps He) as [N HN]. exists N. intros n' Hn'.
    rewrite <- E. apply HN. exact Hn'.
Qed.

(* integer evaluation of the partial sum at a/b: (A, D, P) with A/D the partial sum, P = a^k *)
Fixpoint tay (a b : Z) (k : nat) : Z * Z * Z :=
  match k with
  | O => (1, 1, 1)%Z
  | S k' => let '(A, D, P) := tay a b k' in
            let f := (b * Z.of_nat k)%Z in
            ((A * f + P * a)%Z, (D * f)%Z, (P * a)%Z)
  end.

Lemma tay_ok a b k : (0 < b)%Z ->
  let '(A, D, P) := tay a b k in
  (0 < D)%Z /\ IZR A / IZR D = sum_f_R0 (eterm (IZR a / IZR b)) k /\ IZR P / IZR D = eterm (IZR a / IZR b) k.
Proof.
  intros Hb. induction k as [|k IH]; cbn [tay].
  - split; [lia|]. unfold eterm. simpl. lra.
  - destruct (tay a b k) as [[A D] P]. destruct IH as (HD & HA & HP).
    assert (0 < b * Z.of_nat (S k))%Z as Hf by lia.
    assert (0 < IZR b) by (apply IZR_lt; exact Hb).
    assert (0 < IZR D) by (apply IZR_lt; exact HD).
    assert (0 < INR (S k)) by (apply lt_0_INR; lia).
    assert (IZR (P * a) / IZR (D * (b * Z.of_nat (S k))) = eterm (IZR a / IZR b) (S k)) as HP'.
    { rewrite eterm_S, <- HP. rewrite !mult_IZR, <- INR_IZR_INZ. field. repeat split; lra. }
    split; [nia|]. split; [|exact HP'].
    cbn [sum_f_R0]. rewrite <- HA, <- HP'.
    rewrite plus_IZR, !mult_IZR, <- INR_IZR_INZ. field. repeat split; lra.
Qed.

(* certificate: n / d <= exp (a / b) *)
Definition exp_lower_cert (a b : Z) (k : nat) (n d : Z) : bool :=
  let '(A, D, _) := tay a b k in
  ((0 <=? a) && (0 <? b) && (0 <? d) && (n * D <=? d * A))%Z%bool.

Lemma exp_lower a b k n d : exp_lower_cert a b k n d = true -> IZR n / IZR d <= exp (IZR a / IZR b).
Proof.
  unfold exp_lower_cert. pose proof (tay_ok a b k) as T. destruct (tay a b k) as [[A D] P].
  intros H. rewrite !andb_true_iff in H. destruct H as [[[H1 H2] H3] H4].
  apply Z.leb_le in H1, H4. apply Z.ltb_lt in H2, H3.
  destruct (T H2) as (HD & HA & _).
  assert (0 < IZR b) by (apply IZR_lt; exact H2).
  assert (0 < IZR d) by (apply IZR_lt; exact H3).
  assert (0 < IZR D) by (apply IZR_lt; exact HD).
  assert (0 <= IZR a / IZR b).
  { apply Rmult_le_pos; [apply IZR_le; exact H1|]. left. apply Rinv_0_lt_compat. assumption. }
  eapply Rle_trans; [|apply exp_taylor_le; assumption]. rewrite <- HA.
  apply IZR_le in H4. rewrite !mult_IZR in H4.
  apply Rmult_le_reg_r with (IZR d * IZR D); [nra|].
  field_simplify; lra.
Qed.

(* certificate: n / d <= exp (- (a / b)), 0 <= a <= b, k odd *)
Definition exp_neg_lower_cert (a b : Z) (h : nat) (n d : Z) : bool :=
  let '(A, D, _) := tay (- a) b (S (2 * h)) in
  ((0 <=? a) && (a <=? b) && (0 <? b) && (0 <? d) && (n * D <=? d * A))%Z%bool.

Lemma exp_neg_lower a b h n d : exp_neg_lower_cert a b h n d = true -> IZR n / IZR d <= exp (- (IZR a / IZR b)).
Proof.
  unfold exp_neg_lower_cert. pose proof (tay_ok (- a) b (S (2 * h))) as T.
  destruct (tay (- a) b (S (2 * h))) as [[A D] P].
  intros H. rewrite !andb_true_iff in H. destruct H as [[[[H1 H1'] H2] H3] H4].
  apply Z.leb_le in H1, H1', H4. apply Z.ltb_lt in H2, H3.
  destruct (T H2) as (HD & HA & _).
  assert (0 < IZR b) by (apply IZR_lt; exact H2).
  assert (0 < IZR d) by (apply IZR_lt; exact H3).
  assert (0 < IZR D) by (apply IZR_lt; exact HD).
  assert (0 <= IZR a / IZR b <= 1) as B.
  { apply IZR_le in H1, H1'. split.
    - apply Rmult_le_pos; [lra|]. left. apply Rinv_0_lt_compat. assumption.
    - apply Rmult_le_reg_r with (IZR b); [lra|]. field_simplify; lra. }
  eapply Rle_trans; [|apply exp_neg_taylor with (n := h); exact B].
  replace (- (IZR a / IZR b)) with (IZR (- a) / IZR b) by (rewrite opp_IZR; field; lra).
  rewrite <- HA.
  apply IZR_le in H4. rewrite !mult_IZR in H4.
  apply Rmult_le_reg_r with (IZR d * IZR D); [nra|].
  field_simplify; lra.
Qed.

(* floor division *)
Lemma IZR_div_le a b : (0 < b)%Z -> IZR (a / b) <= IZR a / IZR b.
Proof.
  intros H. assert (0 < IZR b) by (apply IZR_lt; exact H).
  apply Rmult_le_reg_r with (IZR b); [assumption|].
  unfold Rdiv. rewrite Rmult_assoc, Rinv_l, Rmult_1_r by lra.
  rewrite <- mult_IZR. apply IZR_le. rewrite Z.mul_comm. apply Z.mul_div_le. exact H.
Qed.

Lemma IZR_div_gt a b : (0 < b)%Z -> IZR a / IZR b - 1 < IZR (a / b).
Proof.
  intros H. assert (0 < IZR b) by (apply IZR_lt; exact H).
  apply Rmult_lt_reg_r with (IZR b); [assumption|].
  unfold Rdiv. rewrite Rmult_minus_distr_r, Rmult_assoc, Rinv_l, Rmult_1_r by lra.
  rewrite Rmult_1_l, <- mult_IZR, <- minus_IZR. apply IZR_lt.
  pose proof (Z.mod_pos_bound a b H). pose proof (Z.div_mod a b ltac:(lia)). lia.
Qed.

(* the tail of the exponential series *)
Lemma taylor_tail x n : 0 <= x -> 2 * x <= INR (n + 2) -> exp x <= sum_f_R0 (eterm x) n + 2 * eterm x (S n).
Proof.
  intros Hx Hn.
  assert (forall m, sum_f_R0 (eterm x) (n + m) + 2 * eterm x (S (n + m)) <= sum_f_R0 (eterm x) n + 2 * eterm x (S n)) as B.
  { induction m as [|m IH]; [rewrite Nat.add_0_r; lra|]. eapply Rle_trans; [|exact IH].
    rewrite Nat.add_succ_r. cbn [sum_f_R0]. rewrite (eterm_S x (S (n + m))).
    pose proof (eterm_nonneg x (S (n + m)) Hx) as P. assert (0 < INR (S (S (n + m)))) as Q by (apply lt_0_INR; lia).
    assert (2 * x <= INR (S (S (n + m)))) as Hn'. { eapply Rle_trans; [exact Hn|]. apply le_INR. lia. }
    assert (2 * (eterm x (S (n + m)) * x / INR (S (S (n + m)))) <= eterm x (S (n + m))); [|lra].
    apply Rmult_le_reg_r with (INR (S (S (n + m)))); [exact Q|].
    replace (2 * (eterm x (S (n + m)) * x / INR (S (S (n + m)))) * INR (S (S (n + m)))) with (eterm x (S (n + m)) * (2 * x)) by (field; lra).
    apply Rmult_le_compat_l; assumption. }
  pose proof (exp_infinite_sum x) as C.
  apply Rnot_lt_le. intros L.
  destruct (C (exp x - (sum_f_R0 (eterm x) n + 2 * eterm x (S n))) ltac:(lra)) as [N HN].
  specialize (HN (n + N)%nat ltac:(lia)). unfold R_dist in HN. specialize (B N).
  pose proof (eterm_nonneg x (S (n + N)) Hx).
  rewrite Rabs_left1 in HN by lra. lra.
Qed.

(* fixed-point evaluation of the partial sum at x / 2^s, rounded down and up: (sum, last term) *)
Fixpoint fix_lo (x s : Z) (k : nat) : Z * Z :=
  match k with
  | O => (Z.shiftl 1 s, Z.shiftl 1 s)
  | S k' => let '(A, T) := fix_lo x s k' in let T' := (Z.shiftr (T * x) s / Z.of_nat k)%Z in ((A + T')%Z, T')
  end.
Fixpoint fix_hi (x s : Z) (k : nat) : Z * Z :=
  match k with
  | O => (Z.shiftl 1 s, Z.shiftl 1 s)
  | S k' => let '(A, T) := fix_hi x s k' in let T' := (Z.shiftr (T * x) s / Z.of_nat k + 1)%Z in ((A + T')%Z, T')
  end.
Lemma scaled_step s t x k (X E S' : R) : (0 <= s)%Z -> S' = IZR (2 ^ s) ->
  IZR (Z.shiftr (t * x) s / Z.of_nat (S k)) <= IZR t * (IZR x / S') / INR (S k) < IZR (Z.shiftr (t * x) s / Z.of_nat (S k)) + 1.
Proof.
  intros Hs ->. rewrite Z.shiftr_div_pow2 by exact Hs. assert (0 < 2 ^ s)%Z as HP by (apply Z.pow_pos_nonneg; lia).
  rewrite Z.div_div by lia. assert (0 < 2 ^ s * Z.of_nat (S k))%Z as HQ by lia.
  pose proof (IZR_div_le (t * x) _ HQ) as L. pose proof (IZR_div_gt (t * x) _ HQ) as U.
  assert (0 < IZR (2 ^ s)) by (apply IZR_lt; exact HP). assert (0 < INR (S k)) by (apply lt_0_INR; lia).
  replace (IZR t * (IZR x / IZR (2 ^ s)) / INR (S k)) with (IZR (t * x) / IZR (2 ^ s * Z.of_nat (S k))).
  - split; [exact L|lra].
  - rewrite !mult_IZR, <- INR_IZR_INZ. field. split; lra.
Qed.
Lemma fix_lo_ok x s k X : (0 <= x)%Z -> (0 <= s)%Z -> IZR x / IZR (2 ^ s) <= X ->
  let '(A, T) := fix_lo x s k in (0 <= T)%Z /\ IZR T <= IZR (2 ^ s) * eterm X k /\ IZR A <= IZR (2 ^ s) * sum_f_R0 (eterm X) k.
Proof.
  intros Hx Hs HX. assert (0 < 2 ^ s)%Z as HP by (apply Z.pow_pos_nonneg; lia). assert (0 < IZR (2 ^ s)) as HP' by (apply IZR_lt; exact HP).
  induction k as [|k IH]; cbn [fix_lo].
  - rewrite Z.shiftl_mul_pow2, Z.mul_1_l by exact Hs. split; [lia|]. unfold eterm. simpl. lra.
  - destruct (fix_lo x s k) as [A T]. destruct IH as (HT & H1 & H2).
    pose proof (scaled_step s T x k X 0 _ Hs eq_refl) as [L _].
    assert (0 <= Z.shiftr (T * x) s / Z.of_nat (S k))%Z as HT'.
    { apply Z.div_pos; [|lia]. apply Z.shiftr_nonneg. nia. }
    set (T' := (Z.shiftr (T * x) s / Z.of_nat (S k))%Z) in *. split; [exact HT'|].
    assert (0 < INR (S k)) by (apply lt_0_INR; lia).
    assert (IZR T' <= IZR (2 ^ s) * eterm X (S k)) as E.
    { eapply Rle_trans; [exact L|]. rewrite eterm_S. unfold Rdiv at 1 3. rewrite <- Rmult_assoc.
      apply Rmult_le_compat_r; [left; apply Rinv_0_lt_compat; assumption|]. rewrite <- Rmult_assoc.
      apply Rmult_le_compat; [apply IZR_le; exact HT| |exact H1|exact HX].
      apply Rmult_le_pos; [apply IZR_le; exact Hx|left; apply Rinv_0_lt_compat; assumption]. }
    split; [exact E|]. rewrite plus_IZR. cbn [sum_f_R0]. lra.
Qed.
Lemma fix_hi_ok x s k X : (0 <= x)%Z -> (0 <= s)%Z -> 0 <= X <= IZR x / IZR (2 ^ s) ->
  let '(A, T) := fix_hi x s k in (0 <= T)%Z /\ IZR (2 ^ s) * eterm X k <= IZR T /\ IZR (2 ^ s) * sum_f_R0 (eterm X) k <= IZR A.
Proof.
  intros Hx Hs HX. assert (0 < 2 ^ s)%Z as HP by (apply Z.pow_pos_nonneg; lia). assert (0 < IZR (2 ^ s)) as HP' by (apply IZR_lt; exact HP).
  induction k as [|k IH]; cbn [fix_hi].
  - rewrite Z.shiftl_mul_pow2, Z.mul_1_l by exact Hs. split; [lia|]. unfold eterm. simpl. lra.
  - destruct (fix_hi x s k) as [A T]. destruct IH as (HT & H1 & H2).
    pose proof (scaled_step s T x k X 0 _ Hs eq_refl) as [_ L].
    assert (0 <= Z.shiftr (T * x) s / Z.of_nat (S k))%Z as HT'.
    { apply Z.div_pos; [|lia]. apply Z.shiftr_nonneg. nia. }
    set (T' := (Z.shiftr (T * x) s / Z.of_nat (S k))%Z) in *. split; [lia|].
    assert (0 < INR (S k)) by (apply lt_0_INR; lia).
    assert (IZR (2 ^ s) * eterm X (S k) <= IZR (T' + 1)) as E.
    { rewrite (plus_IZR T' 1). apply Rle_trans with (IZR T * (IZR x / IZR (2 ^ s)) / INR (S k)); [|lra]. rewrite eterm_S. unfold Rdiv at 1 2. rewrite <- Rmult_assoc.
      apply Rmult_le_compat_r; [left; apply Rinv_0_lt_compat; assumption|]. rewrite <- Rmult_assoc.
      apply Rmult_le_compat; [|apply HX|exact H1|apply HX].
      apply Rmult_le_pos; [lra|]. apply eterm_nonneg. apply HX. }
    split; [exact E|]. rewrite (plus_IZR A). cbn [sum_f_R0]. lra.
Qed.
(* certificates with s binary digits: n / d < exp (a / b), exp (a / b) < n / d *)
Definition exp_gt_cert (a b s : Z) (k : nat) (n d : Z) : bool :=
  ((0 <=? a) && (0 <? b) && (0 <=? s) && (0 <? d) && (Z.shiftl n s <? d * fst (fix_lo (Z.shiftl a s / b) s k)))%Z%bool.
Definition exp_lt_cert (a b s : Z) (k : nat) (n d : Z) : bool :=
  ((0 <=? a) && (0 <? b) && (0 <=? s) && (0 <? d) && (2 * a <=? b * Z.of_nat (k + 2)) &&
   (let '(A, T) := fix_hi (Z.shiftl a s / b + 1) s (S k) in (A + T) * d <? Z.shiftl n s))%Z%bool.
Lemma exp_gt a b s k n d : exp_gt_cert a b s k n d = true -> IZR n / IZR d < exp (IZR a / IZR b).
Proof.
  unfold exp_gt_cert. intros H. rewrite !andb_true_iff in H. destruct H as [[[[H1 H2] H3] H4] H5].
  apply Z.leb_le in H1, H3. apply Z.ltb_lt in H2, H4, H5. rewrite !Z.shiftl_mul_pow2 in H5 by exact H3.
  assert (0 < 2 ^ s)%Z as HP by (apply Z.pow_pos_nonneg; lia). assert (0 < IZR (2 ^ s)) as HP' by (apply IZR_lt; exact HP).
  assert (0 < IZR b) by (apply IZR_lt; exact H2). assert (0 < IZR d) by (apply IZR_lt; exact H4).
  set (x := (a * 2 ^ s / b)%Z) in *. assert (0 <= x)%Z as Hx by (apply Z.div_pos; nia).
  assert (IZR x / IZR (2 ^ s) <= IZR a / IZR b) as HX.
  { pose proof (IZR_div_le (a * 2 ^ s) b H2) as L. fold x in L. rewrite mult_IZR in L. apply Rmult_le_reg_r with (IZR (2 ^ s)); [assumption|].
    replace (IZR x / IZR (2 ^ s) * IZR (2 ^ s)) with (IZR x) by (field; lra). replace (IZR a / IZR b * IZR (2 ^ s)) with (IZR a * IZR (2 ^ s) / IZR b) by (field; lra). exact L. }
  pose proof (fix_lo_ok x s k _ Hx H3 HX) as B. destruct (fix_lo x s k) as [A T]. destruct B as (_ & _ & B). cbn [fst] in H5.
  assert (0 <= IZR a / IZR b) as Hp0 by (apply Rmult_le_pos; [apply IZR_le; exact H1|left; apply Rinv_0_lt_compat; assumption]).
  pose proof (exp_taylor_le _ k Hp0) as E. apply IZR_lt in H5. rewrite !mult_IZR in H5.
  apply Rmult_lt_reg_r with (IZR d * IZR (2 ^ s)); [nra|]. replace (IZR n / IZR d * (IZR d * IZR (2 ^ s))) with (IZR n * IZR (2 ^ s)) by (field; lra).
  eapply Rlt_le_trans; [exact H5|]. apply Rle_trans with (IZR d * (IZR (2 ^ s) * sum_f_R0 (eterm (IZR a / IZR b)) k)); [apply Rmult_le_compat_l; lra|].
  rewrite <- Rmult_assoc, Rmult_comm. apply Rmult_le_compat_r; [nra|exact E].
Qed.
Lemma exp_lt a b s k n d : exp_lt_cert a b s k n d = true -> exp (IZR a / IZR b) < IZR n / IZR d.
Proof.
  unfold exp_lt_cert. intros H. rewrite !andb_true_iff in H. destruct H as [[[[[H1 H2] H3] H4] H6] H5].
  apply Z.leb_le in H1, H3, H6. apply Z.ltb_lt in H2, H4. rewrite !Z.shiftl_mul_pow2 in H5 by exact H3.
  assert (0 < 2 ^ s)%Z as HP by (apply Z.pow_pos_nonneg; lia). assert (0 < IZR (2 ^ s)) as HP' by (apply IZR_lt; exact HP).
  assert (0 < IZR b) by (apply IZR_lt; exact H2). assert (0 < IZR d) by (apply IZR_lt; exact H4).
  assert (0 <= IZR a / IZR b) as Hp0 by (apply Rmult_le_pos; [apply IZR_le; exact H1|left; apply Rinv_0_lt_compat; assumption]).
  set (x := (a * 2 ^ s / b + 1)%Z) in *. assert (0 <= x)%Z as Hx. { unfold x. pose proof (Z.div_pos (a * 2 ^ s) b). nia. }
  assert (IZR a / IZR b <= IZR x / IZR (2 ^ s)) as HX.
  { pose proof (IZR_div_gt (a * 2 ^ s) b H2) as L. unfold x. rewrite plus_IZR. rewrite mult_IZR in L. apply Rmult_le_reg_r with (IZR (2 ^ s)); [assumption|].
    replace ((IZR (a * 2 ^ s / b) + 1) / IZR (2 ^ s) * IZR (2 ^ s)) with (IZR (a * 2 ^ s / b) + 1) by (field; lra).
    replace (IZR a / IZR b * IZR (2 ^ s)) with (IZR a * IZR (2 ^ s) / IZR b) by (field; lra). lra. }
  pose proof (fix_hi_ok x s (S k) _ Hx H3 (conj Hp0 HX)) as B. destruct (fix_hi x s (S k)) as [A T]. destruct B as (_ & B1 & B2).
  apply Z.ltb_lt in H5. apply IZR_lt in H5. rewrite !mult_IZR, plus_IZR in H5.
  assert (exp (IZR a / IZR b) <= sum_f_R0 (eterm (IZR a / IZR b)) k + 2 * eterm (IZR a / IZR b) (S k)) as U.
  { apply taylor_tail; [exact Hp0|]. rewrite INR_IZR_INZ. apply Rmult_le_reg_r with (IZR b); [lra|].
    replace (2 * (IZR a / IZR b) * IZR b) with (IZR (2 * a)) by (rewrite mult_IZR; field; lra). rewrite <- mult_IZR. apply IZR_le. lia. }
  cbn [sum_f_R0] in B2. set (X := IZR a / IZR b) in *. apply Rmult_lt_reg_r with (IZR d * IZR (2 ^ s)); [nra|].
  replace (IZR n / IZR d * (IZR d * IZR (2 ^ s))) with (IZR n * IZR (2 ^ s)) by (field; lra). eapply Rle_lt_trans; [|exact H5].
  rewrite (Rmult_comm (IZR A + IZR T)), Rmult_comm, Rmult_assoc. apply Rmult_le_compat_l; [lra|].
  apply Rle_trans with (IZR (2 ^ s) * (sum_f_R0 (eterm X) k + 2 * eterm X (S k))); [apply Rmult_le_compat_l; lra|lra].
Qed.

Lemma ln_le_compat x y : 0 < x -> x <= y -> ln x <= ln y.
Proof. intros H [L|E]; [left; apply ln_increasing; assumption|right; subst; reflexivity]. Qed.

Lemma exp_le_compat x y : x <= y -> exp x <= exp y.
Proof. intros [L|E]; [left; apply exp_increasing; assumption|right; subst; reflexivity]. Qed.

(* partial sums of ln(1+u) with an even number of terms are lower bounds, u >= 0 *)
Fixpoint lsum (m : nat) (u : R) : R :=
  match m with
  | O => 0
  | S m' => lsum m' u + (u ^ (2 * m' + 1) / INR (2 * m' + 1) - u ^ (2 * m' + 2) / INR (2 * m' + 2))
  end.
Fixpoint dsum (m : nat) (u : R) : R :=
  match m with O => 0 | S m' => dsum m' u + (u ^ (2 * m') - u ^ (2 * m' + 1)) end.

Lemma dsum_closed m u : dsum m u * (1 + u) = 1 - u ^ (2 * m).
Proof.
  induction m as [|m IH]; cbn [dsum].
  - simpl. ring.
  - rewrite Rmult_plus_distr_r, IH.
    replace (2 * S m)%nat with (2 * m + 2)%nat by lia.
    rewrite !pow_add. ring.
Qed.

Lemma lsum_derive m u : derivable_pt_lim (lsum m) u (dsum m u).
Proof.
  induction m as [|m IH]; cbn [dsum].
  - apply (derivable_pt_lim_const 0 u).
  - assert (forall n, (0 < n)%nat -> derivable_pt_lim (fun x => x ^ n / INR n) u (u ^ (pred n))) as P.
    { intros n Hn. pose proof (derivable_pt_lim_scal _ (/ INR n) u _ (derivable_pt_lim_pow u n)) as D.
      assert (0 < INR n) by (apply lt_0_INR; exact Hn).
      replace (/ INR n * (INR n * u ^ Init.Nat.pred n)) with (u ^ pred n) in D by (field; lra).
      eapply derivable_pt_lim_ext; [|exact D]. intros z. unfold mult_real_fct. unfold Rdiv. ring. }
    pose proof (P (2 * m + 1)%nat ltac:(lia)) as P1. pose proof (P (2 * m + 2)%nat ltac:(lia)) as P2.
    replace (pred (2 * m + 1)) with (2 * m)%nat in P1 by lia.
    replace (pred (2 * m + 2)) with (2 * m + 1)%nat in P2 by lia.
    exact (derivable_pt_lim_plus _ _ u _ _ IH (derivable_pt_lim_minus _ _ u _ _ P1 P2)).
Qed.

Lemma lsum_0 m : lsum m 0 = 0.
Proof.
  induction m as [|m IH]; cbn [lsum]; [reflexivity|]. rewrite IH.
  rewrite !pow_i by lia. unfold Rdiv. ring.
Qed.

Lemma lsum_le_ln m u : 0 <= u -> lsum m u <= ln (1 + u).
Proof.
  intros [Hu|<-]; [|rewrite lsum_0, Rplus_0_r, ln_1; lra].
  pose (g := fun x => ln (1 + x) - lsum m x).
  pose (g' := fun x => / (1 + x) - dsum m x).
  assert (forall c, 0 <= c <= u -> derivable_pt_lim g c (g' c)) as D.
  { intros c Hc. unfold g, g'. apply derivable_pt_lim_minus; [|apply lsum_derive].
    assert (derivable_pt_lim (fun x => ln (1 + x)) c (/ (1 + c) * (0 + 1))) as L.
    { apply (derivable_pt_lim_comp (fun x => 1 + x) ln c).
      - apply (derivable_pt_lim_plus (fct_cte 1) id c); [apply derivable_pt_lim_const|apply derivable_pt_lim_id].
      - apply derivable_pt_lim_ln. lra. }
    replace (/ (1 + c) * (0 + 1)) with (/ (1 + c)) in L by ring. exact L. }
  destruct (MVT_cor2 g g' 0 u Hu D) as (c & Ec & Hc).
  assert (0 <= g' c) as Hg.
  { unfold g'. pose proof (dsum_closed m c) as E.
    apply Rmult_le_reg_r with (1 + c); [lra|].
    rewrite Rmult_minus_distr_r, Rinv_l by lra. rewrite E, Rmult_0_l.
    assert (0 <= c ^ (2 * m)) by (apply pow_le; lra). lra. }
  unfold g in Ec at 1 2. rewrite lsum_0, Rplus_0_r, ln_1 in Ec. nra.
Qed.
