(* The parts of the generator scripts that compute with Decimals (100 digits; DecimalModel.v).  Every operation on Decimals is a
   relation between the exact real result and the Decimal obtained; operands that are Python integers, or the powers of two
   1/8 .. 16, are exact.  The integer parts of the same scripts are in GeneratorModel.v. *)
From Coq Require Import ZArith List Lia Bool Reals Lra.
From Verif Require Import FormulaConsts RealTools FormulaReal FormulaLower DecimalModel.
Import ListNotations.
Local Open Scope R_scope.

(* int(d) of a non-negative Decimal; print_ln2_scaling_factors.py:40-41 floor *)
Definition is_floor (x : R) (n : Z) : Prop := IZR n <= x < IZR n + 1.
(* print_ln2_scaling_factors.py:44-45 ceiling *)
Definition is_ceiling (x : R) (n : Z) : Prop := IZR n - 1 < x <= IZR n.

(* print_function_optimal_log.py:42-46, one turn of the loop: LOG_MAX_HI_TERM_VAL = 1 (common/constants.py) *)
Definition log_hi_term (n : nat) (term : Z * Z) : Prop :=
  let '(val, ex) := term in
  exists cur p e q,
    rounds (1 / 2 ^ n) cur /\
    rounds (IZR (Z.shiftl 1 127) * cur) p /\ is_floor p val /\
    rounds (exp cur) e /\ rounds (IZR (Z.shiftl 1 127) * e) q /\ is_floor q ex.
(* print_function_optimal_log.py:42-46: n = 0 .. LOG_NUM_OF_HI_TERMS = 8 *)
Definition log_hi_terms (terms : list (Z * Z)) : Prop :=
  length terms = 9%nat /\ forall n term, nth_error terms n = Some term -> log_hi_term n term.

(* print_function_optimal_exp.py:44-50, the loop from n on; EXP_MAX_HI_TERM_VAL = 4, EXP_NUM_OF_HI_TERMS = 7 *)
Fixpoint exp_hi_terms_from (n : nat) (top : Z) (terms : list (Z * Z * Z)) : Prop :=
  match terms with
  | [] => True
  | (bit, num, den) :: rest =>
      (exists cur product quotient product',
         rounds (exp (2 ^ (n + 4) / 2 ^ 7)) cur /\
         rounds (cur * IZR top) product /\ rounds (IZR (2 ^ 256 - 1) / product) quotient /\ is_floor quotient den /\
         rounds (IZR den * cur) product' /\ is_floor product' num) /\
      bit = Z.shiftr (Z.shiftl (Z.shiftl 1 127) (Z.of_nat (n + 4))) 7 /\
      exp_hi_terms_from (S n) (top * num / den) rest
  end.
(* print_function_optimal_exp.py:43-50 *)
Definition exp_hi_terms (terms : list (Z * Z * Z)) : Prop :=
  length terms = 8%nat /\
  exists e p t, rounds (exp (2 ^ (0 + 4) / 2 ^ 7)) e /\ rounds (e * IZR (Z.shiftl 1 127)) p /\ is_floor p t /\ exp_hi_terms_from 0 (t - 1) terms.

(* print_ln2_scaling_factors.py:32-37, 48 *)
Definition ln2_numerator (v : Z) : Prop :=
  exists a b quotient product l,
    rounds (ln (IZR (2 ^ (256 - 127) - 1))) a /\ rounds (ln 2) b /\ rounds (a / b) quotient /\
    rounds (quotient * IZR (2 ^ 127)) product /\ is_floor product l /\ v = ((2 ^ 256 - 1) / l)%Z.
(* print_ln2_scaling_factors.py:49 *)
Definition ln2_denominator (v : Z) : Prop :=
  exists num b quotient, ln2_numerator num /\ rounds (ln 2) b /\ rounds (IZR num / b) quotient /\ is_ceiling quotient v.

(* ---------- floors are unique ---------- *)
Lemma is_floor_unique x n m : is_floor x n -> is_floor x m -> n = m.
Proof.
  intros [A B] [C D]. assert (n < m + 1)%Z by (apply lt_IZR; rewrite plus_IZR; lra).
  assert (m < n + 1)%Z by (apply lt_IZR; rewrite plus_IZR; lra). lia.
Qed.
Lemma is_ceiling_unique x n m : is_ceiling x n -> is_ceiling x m -> n = m.
Proof.
  intros [A B] [C D]. assert (n < m + 1)%Z by (apply lt_IZR; rewrite plus_IZR; lra).
  assert (m < n + 1)%Z by (apply lt_IZR; rewrite plus_IZR; lra). lia.
Qed.
Lemma nth_error_ext {A} (a : list A) : forall b, (forall n, nth_error a n = nth_error b n) -> a = b.
Proof.
  induction a as [|x a IH]; intros [|y b] H; [reflexivity|discriminate (H 0%nat)|discriminate (H 0%nat)|].
  pose proof (H 0%nat) as H0. cbn in H0. injection H0 as ->. f_equal. apply IH. intros n. exact (H (S n)).
Qed.

(* ---------- roundings do not cross an integer ---------- *)
Definition eps : R := / IZR (2 ^ 180).
Lemma eps_small : 0 < eps <= / 4.
Proof.
  assert (4 <= 2 ^ 180)%Z as A by (apply Z.leb_le; vm_compute; reflexivity). unfold eps. set (a := (2 ^ 180)%Z) in *. clearbody a.
  split; [apply Rinv_0_lt_compat, IZR_lt; lia|]. apply Rinv_le_contravar; [lra|apply IZR_le; lia].
Qed.
Lemma ulp_eps : 100 * ulp <= eps.
Proof.
  pose proof ulp_small as [_ H]. assert (100 * 2 ^ 180 <= 2 ^ 320)%Z as A by (apply Z.leb_le; vm_compute; reflexivity).
  assert (0 < 2 ^ 180)%Z as B by (apply Z.ltb_lt; vm_compute; reflexivity).
  unfold eps. set (a := (2 ^ 180)%Z) in *. set (b := (2 ^ 320)%Z) in *. clearbody a b.
  apply Rle_trans with (100 * / IZR b); [lra|]. apply IZR_le in A. rewrite mult_IZR in A. apply IZR_lt in B.
  apply Rmult_le_reg_r with (IZR a * IZR b); [nra|]. replace (100 * / IZR b * (IZR a * IZR b)) with (100 * IZR a) by (field; lra).
  replace (/ IZR a * (IZR a * IZR b)) with (IZR b) by (field; lra). lra.
Qed.
Ltac small := pose proof ulp_small as [?up _]; pose proof ulp_eps; pose proof eps_small as [?ep ?ep4]; lra.
Lemma floor_within e x y n : e <= eps -> within e x y -> IZR n <= x * (1 - eps) -> x * (1 + eps) < IZR n + 1 -> is_floor y n.
Proof. intros He HW H1 H2. apply (within_weaken _ eps) in HW; [|exact He]. destruct HW as [Hx H]. split; lra. Qed.
Lemma ceiling_within e x y n : e <= eps -> within e x y -> IZR n - 1 < x * (1 - eps) -> x * (1 + eps) <= IZR n -> is_ceiling y n.
Proof. intros He HW H1 H2. apply (within_weaken _ eps) in HW; [|exact He]. destruct HW as [Hx H]. split; lra. Qed.
(* one more rounded operation *)
Lemma within_rounds e x y z : 0 <= e <= / 4 -> within e x y -> rounds y z -> within (e + 2 * ulp) x z.
Proof.
  intros He HW Hr. assert (0 < y) by (eapply within_pos; eassumption). apply rounds_within in Hr; [|assumption].
  eapply within_trans; [exact He|small|exact HW|exact Hr].
Qed.

(* ---------- certificates: n/d < exp (a/b) < n'/d' ---------- *)
Definition exp_enclosed (a b n d n' d' : Z) : bool := exp_gt_cert a b 200 120 n d && exp_lt_cert a b 200 120 n' d'.
Lemma exp_enclosed_ok a b n d n' d' : exp_enclosed a b n d n' d' = true -> IZR n / IZR d < exp (IZR a / IZR b) < IZR n' / IZR d'.
Proof. intros H. apply andb_true_iff in H. destruct H as [H1 H2]. split; [exact (exp_gt _ _ _ _ _ _ H1)|exact (exp_lt _ _ _ _ _ _ H2)]. Qed.
(* with a margin *)
Definition exp_margin (a b n d n' d' : Z) : bool :=
  ((0 <? d) && (0 <? d'))%Z && exp_enclosed a b (n * 2 ^ 180) (d * (2 ^ 180 - 1)) (n' * 2 ^ 180) (d' * (2 ^ 180 + 1)).
Lemma exp_margin_ok a b n d n' d' : exp_margin a b n d n' d' = true ->
  IZR n / IZR d < exp (IZR a / IZR b) * (1 - eps) /\ exp (IZR a / IZR b) * (1 + eps) < IZR n' / IZR d'.
Proof.
  unfold exp_margin, eps. intros H. rewrite !andb_true_iff in H. destruct H as [[D D'] H]. apply Z.ltb_lt in D, D'. apply IZR_lt in D, D'.
  apply exp_enclosed_ok in H. destruct H as [L U]. assert (4 <= 2 ^ 180)%Z as A by (apply Z.leb_le; vm_compute; reflexivity).
  set (q := (2 ^ 180)%Z) in *. clearbody q. apply IZR_le in A. rewrite !mult_IZR, minus_IZR in L. rewrite !mult_IZR, plus_IZR in U. set (c := exp _) in *. clearbody c.
  set (Q := IZR q) in *. clearbody Q. split.
  - apply Rmult_lt_reg_r with (Q / (Q - 1)); [apply Rdiv_lt_0_compat; lra|].
    replace (c * (1 - / Q) * (Q / (Q - 1))) with c by (field; lra). replace (IZR n / IZR d * (Q / (Q - 1))) with (IZR n * Q / (IZR d * (Q - 1))) by (field; lra). exact L.
  - apply Rmult_lt_reg_r with (Q / (Q + 1)); [apply Rdiv_lt_0_compat; lra|].
    replace (c * (1 + / Q) * (Q / (Q + 1))) with c by (field; lra). replace (IZR n' / IZR d' * (Q / (Q + 1))) with (IZR n' * Q / (IZR d' * (Q + 1))) by (field; lra). exact U.
Qed.

(* ---------- logarithm terms ---------- *)
Definition log_table : list (Z * Z) := (FIXED_1, OPT_LOG_MAX_VAL) :: map (fun t => (snd (fst t), fst (fst t))) optimal_log_hi.
Fixpoint log_table_cert (n : nat) (l : list (Z * Z)) : bool :=
  match l with
  | [] => true
  | (v, e) :: l' => ((v * 2 ^ Z.of_nat n =? FIXED_1) && (Z.of_nat n <=? 100) && (0 <=? v) && (v <=? 10 ^ 100) && exp_margin 1 (2 ^ Z.of_nat n) e FIXED_1 (e + 1) FIXED_1)%Z && log_table_cert (S n) l'
  end.
Lemma log_table_certified : log_table_cert 0 log_table = true.
Proof. vm_cast_no_check (eq_refl true). Qed.
(* 1/2^n has n digits after the point *)
Lemma decimal_half n : (n <= 100)%nat -> decimal (1 / 2 ^ n).
Proof.
  intros Hn. replace (1 / 2 ^ n) with (scaled (5 ^ Z.of_nat n) (- Z.of_nat n)).
  - apply decimal_scaled. rewrite Z.abs_eq by (apply Z.pow_nonneg; lia). apply Z.le_trans with (5 ^ 100)%Z; [apply Z.pow_le_mono_r; lia|].
    apply Z.leb_le. vm_compute. reflexivity.
  - unfold scaled. rewrite powerRZ_neg', <- pow_powerRZ, <- pow_IZR. replace 10 with (2 * 5) by lra. rewrite Rpow_mult_distr. field. split; apply pow_nonzero; lra.
Qed.
Lemma log_term_rounds n v e cur p e' q : (v * 2 ^ Z.of_nat n = FIXED_1)%Z -> (Z.of_nat n <= 100)%Z -> (0 <= v <= 10 ^ 100)%Z ->
  exp_margin 1 (2 ^ Z.of_nat n) e FIXED_1 (e + 1) FIXED_1 = true ->
  rounds (1 / 2 ^ n) cur -> rounds (F * cur) p -> rounds (exp cur) e' -> rounds (F * e') q -> is_floor p v /\ is_floor q e.
Proof.
  intros Hv Hn Hv' He R1 R2 R3 R4. apply exp_margin_ok in He. pose proof F_pos as HF. rewrite <- pow_IZR in He.
  apply rounds_decimal in R1; [|apply decimal_half; lia]. subst cur.
  assert (0 < 2 ^ n) by (apply pow_lt; lra).
  assert (F * (1 / 2 ^ n) = IZR v) as E. { apply (f_equal IZR) in Hv. rewrite mult_IZR, <- pow_IZR in Hv. rewrite <- Hv. field. lra. }
  rewrite E in R2. apply rounds_decimal in R2; [|apply decimal_IZR; lia]. subst p. split; [split; lra|].
  rewrite plus_IZR in He. destruct He as [L U]. set (c := exp (1 / 2 ^ n)) in *. assert (0 < c) by apply exp_pos.
  apply rounds_within in R3; [|assumption]. apply (within_mult _ F) in R3; [|lra]. pose proof ulp_small. pose proof ulp_eps. pose proof eps_small.
  eapply within_rounds in R4; [|split; [|]|exact R3]; [|lra|lra].
  eapply floor_within; [|exact R4| |]; [lra| |].
  - apply Rmult_lt_compat_l with (r := F) in L; [|lra]. replace (F * (IZR e / F)) with (IZR e) in L by (field; lra). lra.
  - apply Rmult_lt_compat_l with (r := F) in U; [|lra]. replace (F * ((IZR e + 1) / F)) with (IZR e + 1) in U by (field; lra). lra.
Qed.
Lemma log_term_iff n v e t : (v * 2 ^ Z.of_nat n = FIXED_1)%Z -> (Z.of_nat n <= 100)%Z -> (0 <= v <= 10 ^ 100)%Z ->
  exp_margin 1 (2 ^ Z.of_nat n) e FIXED_1 (e + 1) FIXED_1 = true -> log_hi_term n t <-> t = (v, e).
Proof.
  intros Hv Hn Hv' He. unfold log_hi_term. change (Z.shiftl 1 127) with FIXED_1. split.
  - destruct t as [v1 e1]. intros (cur & p & e' & q & R1 & R2 & F1 & R3 & R4 & F2).
    destruct (log_term_rounds n v e cur p e' q Hv Hn Hv' He R1 R2 R3 R4) as [G1 G2]. f_equal; eapply is_floor_unique; eassumption.
  - intros ->. pose proof F_pos as HF. assert (0 < 1 / 2 ^ n) by (apply Rdiv_lt_0_compat; [lra|apply pow_lt; lra]).
    assert (rounds (1 / 2 ^ n) (1 / 2 ^ n)) as R1 by (apply decimal_rounds, decimal_half; lia).
    destruct (rounds_exists (F * (1 / 2 ^ n))) as [p R2]; [nra|]. destruct (rounds_exists (exp (1 / 2 ^ n))) as [e' R3]; [apply exp_pos|].
    destruct (rounds_exists (F * e')) as [q R4].
    { apply Rmult_lt_0_compat; [exact HF|]. apply rounds_within in R3; [|apply exp_pos]. eapply within_pos; [|exact R3]. pose proof ulp_small. pose proof ulp_eps. pose proof eps_small. lra. }
    destruct (log_term_rounds n v e _ p e' q Hv Hn Hv' He R1 R2 R3 R4) as [G1 G2].
    exists (1 / 2 ^ n), p, e', q. repeat split; try assumption; try apply R1; try apply R2; try apply R3; try apply R4; try apply G1; try apply G2.
Qed.
Lemma log_table_ok l : forall k, log_table_cert k l = true -> forall n t t', nth_error l n = Some t -> log_hi_term (k + n) t' <-> t' = t.
Proof.
  induction l as [|[v e] l IH]; intros k C n t t'; [destruct n; discriminate|].
  cbn [log_table_cert] in C. rewrite !andb_true_iff in C. destruct C as [[[[[C0 C1] C2] C3] C4] C5].
  destruct n as [|n]; cbn [nth_error].
  - intros [= <-]. rewrite Nat.add_0_r. apply Z.eqb_eq in C0. apply Z.leb_le in C1, C2, C3. apply log_term_iff; auto.
  - intros E. replace (k + S n)%nat with (S k + n)%nat by lia. now apply IH.
Qed.
Lemma log_hi_generated terms :
  log_hi_terms terms <-> terms = (FIXED_1, OPT_LOG_MAX_VAL) :: map (fun t => (snd (fst t), fst (fst t))) optimal_log_hi.
Proof.
  fold log_table. pose proof (log_table_ok _ 0 log_table_certified) as H. split.
  - intros [L K]. apply nth_error_ext. intros n. destruct (nth_error terms n) as [t|] eqn:E, (nth_error log_table n) as [t'|] eqn:E'.
    + apply K in E. apply (H n t' t E') in E. congruence.
    + apply nth_error_None in E'. assert (n < length terms)%nat by (apply nth_error_Some; congruence). cbn in E'. lia.
    + apply nth_error_None in E. assert (n < length log_table)%nat as B by (apply nth_error_Some; congruence). cbn in B. lia.
    + reflexivity.
  - intros ->. split; [reflexivity|]. intros n t E. now apply (H n t t E).
Qed.

(* ---------- exponential terms ---------- *)
Definition exp_table : list (Z * Z * Z) := optimal_exp_hi ++ [(OPT_EXP_MAX_VAL, 0x3c6ab775dd0b95b4cbee7bfa94f, 0x721193dd8591a078a6680)%Z].
Definition exp_top : Z := 0x910b022db7ae67ce76b441c27035c6a1.
Fixpoint exp_table_cert (n : nat) (top : Z) (l : list (Z * Z * Z)) : bool :=
  match l with
  | [] => true
  | (b, m, d) :: l' =>
      ((0 <? top) && (0 <? d) && (b =? Z.shiftr (Z.shiftl (Z.shiftl 1 127) (Z.of_nat (n + 4))) 7))%Z &&
      exp_enclosed (2 ^ Z.of_nat n) 8 ((2 ^ 256 - 1) * (2 ^ 180 + 1)) (2 ^ 180 * (top * (d + 1))) ((2 ^ 256 - 1) * (2 ^ 180 - 1)) (2 ^ 180 * (top * d)) &&
      exp_margin (2 ^ Z.of_nat n) 8 m d (m + 1) d && exp_table_cert (S n) (top * m / d) l'
  end.
Lemma exp_table_certified : exp_table_cert 0 (exp_top - 1) exp_table = true.
Proof. vm_cast_no_check (eq_refl true). Qed.
Lemma exp_arg n : 2 ^ (n + 4) / 2 ^ 7 = IZR (2 ^ Z.of_nat n) / IZR 8.
Proof. rewrite <- pow_IZR, pow_add. simpl (2 ^ 4). simpl (2 ^ 7). field. Qed.
Lemma exp_den_rounds (M top d : Z) (e product quotient : R) (x : R) : (0 < M)%Z -> (0 < top)%Z -> (0 < d)%Z -> 0 < x ->
  IZR (M * (2 ^ 180 + 1)) / IZR (2 ^ 180 * (top * (d + 1))) < x < IZR (M * (2 ^ 180 - 1)) / IZR (2 ^ 180 * (top * d)) ->
  rounds x e -> rounds (e * IZR top) product -> rounds (IZR M / product) quotient -> is_floor quotient d.
Proof.
  intros HM Ht Hd Hx HC R1 R2 R3. pose proof ulp_small as HU. pose proof ulp_eps as HE. pose proof eps_small as HE4.
  apply IZR_lt in HM, Ht, Hd. apply rounds_within in R1; [|exact Hx]. apply (within_mult _ (IZR top)) in R1; [|exact Ht].
  rewrite (Rmult_comm e) in R2. eapply within_rounds in R2; [|split; [|]|exact R1]; [|lra|lra].
  apply (within_div _ (IZR M)) in R2; [|exact HM|lra]. eapply within_rounds in R3; [|split; [|]|exact R2]; [|lra|lra].
  eapply floor_within; [|exact R3| |]; [lra| |]; unfold eps in *; clear R1 R2 R3 HU HE;
  assert (4 <= 2 ^ 180)%Z as A by (apply Z.leb_le; vm_compute; reflexivity);
  set (q := (2 ^ 180)%Z) in *; clearbody q; apply IZR_le in A; rewrite !mult_IZR, !minus_IZR, !plus_IZR in HC; set (Q := IZR q) in *; clearbody Q;
  set (T := IZR top) in *; clearbody T; set (D := IZR d) in *; clearbody D; destruct HC as [L U].
  - assert (0 < Q * (T * D)) as P by (apply Rmult_lt_0_compat; nra). apply Rmult_lt_compat_r with (r := Q * (T * D)) in U; [|exact P].
    replace (IZR M * (Q - 1) / (Q * (T * D)) * (Q * (T * D))) with (IZR M * (Q - 1)) in U by (field; lra).
    apply Rmult_le_reg_r with (T * x * Q); [apply Rmult_lt_0_compat; nra|].
    replace (IZR M / (T * x) * (1 - / Q) * (T * x * Q)) with (IZR M * (Q - 1)) by (field; lra). nra.
  - assert (0 < Q * (T * (D + 1))) as P by (apply Rmult_lt_0_compat; nra). apply Rmult_lt_compat_r with (r := Q * (T * (D + 1))) in L; [|exact P].
    replace (IZR M * (Q + 1) / (Q * (T * (D + 1))) * (Q * (T * (D + 1)))) with (IZR M * (Q + 1)) in L by (field; lra).
    apply Rmult_lt_reg_r with (T * x * Q); [apply Rmult_lt_0_compat; nra|].
    replace (IZR M / (T * x) * (1 + / Q) * (T * x * Q)) with (IZR M * (Q + 1)) by (field; lra). nra.
Qed.
Lemma exp_num_rounds (d m : Z) (x e product : R) : (0 < d)%Z -> 0 < x -> IZR m / IZR d < x * (1 - eps) /\ x * (1 + eps) < IZR (m + 1) / IZR d ->
  rounds x e -> rounds (IZR d * e) product -> is_floor product m.
Proof.
  intros Hd Hx [L U] R1 R2. pose proof ulp_small as HU. pose proof ulp_eps as HE. pose proof eps_small as HE4. apply IZR_lt in Hd.
  apply rounds_within in R1; [|exact Hx]. apply (within_mult _ (IZR d)) in R1; [|exact Hd].
  eapply within_rounds in R2; [|split; [|]|exact R1]; [|lra|lra]. rewrite plus_IZR in U.
  eapply floor_within; [|exact R2| |]; [lra| |].
  - apply Rmult_lt_compat_l with (r := IZR d) in L; [|lra]. replace (IZR d * (IZR m / IZR d)) with (IZR m) in L by (field; lra). lra.
  - apply Rmult_lt_compat_l with (r := IZR d) in U; [|lra]. replace (IZR d * ((IZR m + 1) / IZR d)) with (IZR m + 1) in U by (field; lra). lra.
Qed.
Lemma rounds_pos x y : 0 < x -> rounds x y -> 0 < y.
Proof. intros Hx R. apply rounds_within in R; [|exact Hx]. eapply within_pos; [|exact R]. small. Qed.
Lemma exp_table_ok l : forall n top, exp_table_cert n top l = true -> forall l', length l' = length l -> exp_hi_terms_from n top l' <-> l' = l.
Proof.
  induction l as [|[[b m] d] l IH]; intros n top C l' Hl; [destruct l'; [cbn; intuition|discriminate]|]. cbn [exp_table_cert] in C. rewrite !andb_true_iff in C.
  destruct C as [[[[[C0 C1] C2] C3] C4] C5]. apply Z.ltb_lt in C0, C1. apply Z.eqb_eq in C2. apply exp_enclosed_ok in C3. apply exp_margin_ok in C4.
  destruct l' as [|[[b' m'] d'] l']; [discriminate|]. injection Hl as Hl. specialize (IH _ _ C5 l' Hl). cbn [exp_hi_terms_from].
  rewrite exp_arg. set (c := exp (IZR (2 ^ Z.of_nat n) / IZR 8)) in *. assert (0 < c) as Hc by apply exp_pos.
  assert (0 < 2 ^ 256 - 1)%Z as HM by (apply Z.ltb_lt; vm_compute; reflexivity). set (M := (2 ^ 256 - 1)%Z) in *. clearbody M.
  set (sh := Z.shiftr _ _) in *. clearbody sh. split.
  - intros ((cur & p & q & p' & R1 & R2 & R3 & G3 & R4 & G4) & -> & K).
    pose proof (exp_den_rounds M top d cur p q c HM C0 C1 Hc C3 R1 R2 R3) as G3'. pose proof (is_floor_unique _ _ _ G3 G3'). subst d'.
    pose proof (exp_num_rounds d m c cur p' C1 Hc C4 R1 R4) as G4'. pose proof (is_floor_unique _ _ _ G4 G4'). subst m'.
    apply IH in K. subst l' sh. reflexivity.
  - intros E. injection E as -> -> -> ->. split; [|split; [exact C2|now apply IH]].
    destruct (rounds_exists c Hc) as [cur R1]. pose proof (rounds_pos _ _ Hc R1) as P1.
    destruct (rounds_exists (cur * IZR top)) as [p R2]; [apply Rmult_lt_0_compat; [exact P1|now apply IZR_lt]|].
    assert (0 < p) as P2 by (eapply rounds_pos; [|exact R2]; apply Rmult_lt_0_compat; [exact P1|now apply IZR_lt]).
    destruct (rounds_exists (IZR M / p)) as [q R3]; [apply Rdiv_lt_0_compat; [now apply IZR_lt|exact P2]|].
    destruct (rounds_exists (IZR d * cur)) as [p' R4]; [apply Rmult_lt_0_compat; [now apply IZR_lt|exact P1]|].
    exists cur, p, q, p'. split; [exact R1|]. split; [exact R2|]. split; [exact R3|]. split; [exact (exp_den_rounds M top d cur p q c HM C0 C1 Hc C3 R1 R2 R3)|].
    split; [exact R4|]. exact (exp_num_rounds d m c cur p' C1 Hc C4 R1 R4).
Qed.
Lemma exp_hi_generated :
  exists num den, forall terms, exp_hi_terms terms <-> terms = optimal_exp_hi ++ [(OPT_EXP_MAX_VAL, num, den)].
Proof.
  exists 0x3c6ab775dd0b95b4cbee7bfa94f%Z, 0x721193dd8591a078a6680%Z. intros terms. fold exp_table.
  assert (exp_margin 1 8 exp_top FIXED_1 (exp_top + 1) FIXED_1 = true) as C by (vm_cast_no_check (eq_refl true)). apply exp_margin_ok in C.
  assert (0 < FIXED_1)%Z as HF by reflexivity. set (c := exp (IZR 1 / IZR 8)) in *. assert (0 < c) as Hc by apply exp_pos.
  pose proof (exp_table_ok _ _ _ exp_table_certified terms) as K.
  assert (2 ^ (0 + 4) / 2 ^ 7 = IZR 1 / IZR 8) as E by (rewrite exp_arg; reflexivity).
  unfold exp_hi_terms. change (Z.shiftl 1 127) with FIXED_1. rewrite E. fold c. split.
  - intros (L & e & p & t & R1 & R2 & G & H). rewrite Rmult_comm in R2. pose proof (exp_num_rounds FIXED_1 exp_top c e p HF Hc C R1 R2) as G'.
    pose proof (is_floor_unique _ _ _ G G'). subst t. now apply K.
  - intros ->. split; [reflexivity|]. destruct (rounds_exists c Hc) as [e R1]. pose proof (rounds_pos _ _ Hc R1) as P1.
    destruct (rounds_exists (IZR FIXED_1 * e)) as [p R2]; [apply Rmult_lt_0_compat; [now apply IZR_lt|exact P1]|].
    exists e, p, exp_top. split; [exact R1|]. split; [rewrite Rmult_comm; exact R2|]. split; [exact (exp_num_rounds FIXED_1 exp_top c e p HF Hc C R1 R2)|]. now apply K.
Qed.

(* ---------- ln 2 ---------- *)
Lemma ln2_half : / 2 < ln 2 < 1.
Proof.
  pose proof ln_lt_2 as A. split; [exact A|]. rewrite <- (ln_exp 1). apply ln_increasing; [lra|].
  pose proof (exp_enclosed_ok 1 1 2 1 3 1 eq_refl). replace (IZR 1 / IZR 1) with 1 in H by field. lra.
Qed.
(* the exact value lies well inside an interval between two integers *)
Lemma ln2_numerator_exact : let x := ln (IZR (2 ^ (256 - 127) - 1)) / ln 2 * IZR (2 ^ 127) in
  IZR (129 * 2 ^ 127 - 1) <= x * (1 - eps) /\ x * (1 + eps) < IZR (129 * 2 ^ 127 - 1) + 1.
Proof.
  pose proof ln2_half as [H1 H2]. change (256 - 127)%Z with 129%Z.
  assert (IZR (2 ^ 129 - 1) = 2 ^ 129 * (1 - / 2 ^ 129)) as E.
  { rewrite minus_IZR. replace (IZR (2 ^ 129)) with (2 ^ 129) by (rewrite (pow_IZR 2 129); reflexivity). field. }
  assert (0 < / 2 ^ 129 <= / 4) as [Hq Hq4].
  { split; [apply inv_pow2_pos|]. replace 4 with (2 ^ 2) by lra. apply Rinv_le_contravar; [apply pow_lt; lra|apply Rle_pow; [lra|lia]]. }
  assert (ln (2 ^ 129) = 129 * ln 2) as El. { rewrite ln_pow by lra. f_equal. rewrite INR_IZR_INZ. reflexivity. }
  rewrite E, ln_mult by (try apply pow_lt; lra). rewrite El.
  assert (IZR (2 ^ 127) * / 2 ^ 129 = / 4) as E4.
  { replace (IZR (2 ^ 127)) with (2 ^ 127) by (rewrite (pow_IZR 2 127); reflexivity). change 129%nat with (127 + 2)%nat. rewrite pow_add. replace (2 ^ 2) with 4 by lra. field. }
  assert (1000 * IZR (2 ^ 127) * eps <= / 10) as Ee.
  { assert (10000 * 2 ^ 127 <= 2 ^ 180)%Z as A by (apply Z.leb_le; vm_compute; reflexivity). unfold eps.
    assert (0 < 2 ^ 180)%Z as B by (apply Z.ltb_lt; vm_compute; reflexivity). apply IZR_lt in B. apply IZR_le in A. rewrite mult_IZR in A.
    set (a := IZR (2 ^ 127)) in *. set (b := IZR (2 ^ 180)) in *. clearbody a b. apply Rmult_le_reg_r with b; [exact B|].
    replace (1000 * a * / b * b) with (1000 * a) by (field; lra). lra. }
  assert (/ 2 ^ 129 <= / 8) as Hq8.
  { replace 8 with (2 ^ 3) by lra. apply Rinv_le_contravar; [apply pow_lt; lra|apply Rle_pow; [lra|lia]]. }
  remember (/ 2 ^ 129) as q eqn:Eq. clear Eq E.
  assert (- (5 / 4 * q) < ln (1 - q) <= - q) as [L1 L2].
  { split.
    - apply exp_lt_inv. rewrite exp_ln by lra. rewrite exp_Ropp. pose proof (exp_ge_lin (5 / 4 * q)).
      apply Rle_lt_trans with (/ (1 + 5 / 4 * q)); [apply Rinv_le_contravar; lra|]. apply Rmult_lt_reg_r with (1 + 5 / 4 * q); [lra|]. rewrite Rinv_l by lra. nra.
    - destruct (Rle_lt_dec (ln (1 - q)) (- q)) as [C|C]; [exact C|]. apply exp_increasing in C. rewrite exp_ln in C by lra. pose proof (exp_ge_lin (- q)). lra. }
  rewrite minus_IZR, mult_IZR. assert (0 < IZR (2 ^ 127)) as HT by (apply IZR_lt; reflexivity). set (T := IZR (2 ^ 127)) in *. clearbody T.
  cbv zeta. replace ((129 * ln 2 + ln (1 - q)) / ln 2 * T) with (129 * T - (- ln (1 - q) * T) / ln 2) by (field; lra).
  assert (/ 4 < - ln (1 - q) * T / ln 2 < 3 / 4) as [B1 B2].
  { split.
    - apply Rmult_lt_reg_r with (ln 2); [lra|]. replace (- ln (1 - q) * T / ln 2 * ln 2) with (- ln (1 - q) * T) by (field; lra).
      assert (q * T <= - ln (1 - q) * T) by (apply Rmult_le_compat_r; lra). lra.
    - apply Rmult_lt_reg_r with (ln 2); [lra|]. replace (- ln (1 - q) * T / ln 2 * ln 2) with (- ln (1 - q) * T) by (field; lra).
      assert (- ln (1 - q) * T < 5 / 4 * q * T) by (apply Rmult_lt_compat_r; lra). lra. }
  set (y := - ln (1 - q) * T / ln 2) in *. clearbody y. pose proof eps_small. assert (0 < T * eps) by nra. split; nra.
Qed.
Lemma ln2_numerator_rounds a b quotient product :
  rounds (ln (IZR (2 ^ (256 - 127) - 1))) a -> rounds (ln 2) b -> rounds (a / b) quotient -> rounds (quotient * IZR (2 ^ 127)) product ->
  is_floor product (129 * 2 ^ 127 - 1).
Proof.
  intros R1 R2 R3 R4. pose proof ln2_half as [H1 H2]. pose proof ulp_small as HU. pose proof ulp_eps as HE. pose proof eps_small as HE4.
  pose proof ln2_numerator_exact as [K1 K2]. assert (0 < IZR (2 ^ 127)) as HT by (apply IZR_lt; reflexivity).
  assert (0 < ln (IZR (2 ^ (256 - 127) - 1))) as Hl. { rewrite <- ln_1. apply ln_increasing; [lra|]. apply IZR_lt. reflexivity. }
  set (x := ln (IZR (2 ^ (256 - 127) - 1))) in *. clearbody x. set (T := IZR (2 ^ 127)) in *. clearbody T. set (n := IZR (129 * 2 ^ 127 - 1)) in *.
  pose proof (rounds_pos _ _ Hl R1) as Pa.
  apply rounds_within in R1; [|exact Hl]. apply rounds_within in R2; [|lra].
  assert (within (10 * ulp) (x / ln 2) (a / b)) as W.
  { apply (within_div _ a) in R2; [|exact Pa|lra]. apply (within_mult _ (/ ln 2)) in R1; [|apply Rinv_0_lt_compat; lra].
    replace (/ ln 2 * x) with (x / ln 2) in R1 by (field; lra). replace (/ ln 2 * a) with (a / ln 2) in R1 by (field; lra).
    eapply within_weaken; [|eapply within_trans; [|  |exact R1|exact R2]]; lra. }
  eapply within_rounds in R3; [|split; [|]|exact W]; [|lra|lra]. apply (within_mult _ T) in R3; [|exact HT].
  rewrite (Rmult_comm quotient) in R4. eapply within_rounds in R4; [|split; [|]|exact R3]; [|lra|lra].
  eapply floor_within; [|exact R4| |]; [lra| |]; rewrite (Rmult_comm T); [exact K1|exact K2].
Qed.
Lemma ln2_numerator_iff v : ln2_numerator v <-> v = LN2_NUMERATOR.
Proof.
  assert (LN2_NUMERATOR = (2 ^ 256 - 1) / (129 * 2 ^ 127 - 1))%Z as E by (vm_compute; reflexivity). split.
  - intros (a & b & q & p & l & R1 & R2 & R3 & R4 & G & ->). pose proof (ln2_numerator_rounds _ _ _ _ R1 R2 R3 R4) as G'.
    rewrite (is_floor_unique _ _ _ G G'). symmetry. exact E.
  - intros ->. pose proof ln2_half as [H1 H2].
    assert (0 < ln (IZR (2 ^ (256 - 127) - 1))) as Hl. { rewrite <- ln_1. apply ln_increasing; [lra|]. apply IZR_lt. reflexivity. }
    destruct (rounds_exists _ Hl) as [a R1]. pose proof (rounds_pos _ _ Hl R1) as Pa.
    assert (0 < ln 2) as Hl2 by lra. destruct (rounds_exists _ Hl2) as [b R2]. pose proof (rounds_pos _ _ Hl2 R2) as Pb.
    assert (0 < a / b) as Hq by now apply Rdiv_lt_0_compat. destruct (rounds_exists _ Hq) as [q R3]. pose proof (rounds_pos _ _ Hq R3) as Pq.
    assert (0 < q * IZR (2 ^ 127)) as Hp by (apply Rmult_lt_0_compat; [exact Pq|apply IZR_lt; reflexivity]).
    destruct (rounds_exists _ Hp) as [p R4]. exists a, b, q, p, (129 * 2 ^ 127 - 1)%Z.
    split; [exact R1|]. split; [exact R2|]. split; [exact R3|]. split; [exact R4|]. split; [exact (ln2_numerator_rounds _ _ _ _ R1 R2 R3 R4)|exact E].
Qed.
Lemma ln2_denominator_rounds b quotient : rounds (ln 2) b -> rounds (IZR LN2_NUMERATOR / b) quotient -> is_ceiling quotient LN2_DENOMINATOR.
Proof.
  intros R1 R2. pose proof ln2_half as [H1 H2]. pose proof ulp_small as HU. pose proof ulp_eps as HE. pose proof eps_small as HE4.
  assert (exp_enclosed (LN2_NUMERATOR * (2 ^ 180 + 1)) (LN2_DENOMINATOR * 2 ^ 180) 1 1 2 1 = true) as C1 by (vm_cast_no_check (eq_refl true)).
  assert (exp_enclosed (LN2_NUMERATOR * (2 ^ 180 - 1)) ((LN2_DENOMINATOR - 1) * 2 ^ 180) 2 1 3 1 = true) as C2 by (vm_cast_no_check (eq_refl true)).
  apply exp_enclosed_ok in C1, C2. destruct C1 as [_ C1], C2 as [C2 _].
  assert (1 < IZR LN2_DENOMINATOR) as HD by (apply IZR_lt; reflexivity). assert (0 < IZR LN2_NUMERATOR) as HN by (apply IZR_lt; reflexivity).
  replace (IZR 2 / IZR 1) with 2 in * by field. rewrite <- (exp_ln 2) in C1, C2 by lra. apply exp_lt_inv in C1, C2.
  apply rounds_within in R1; [|lra]. apply (within_div _ (IZR LN2_NUMERATOR)) in R1; [|exact HN|lra].
  eapply within_rounds in R2; [|split; [|]|exact R1]; [|lra|lra]. assert (2 * ulp + 2 * ulp <= eps) as B by lra.
  eapply ceiling_within; [exact B|exact R2| |]; clear B R1 R2 HU HE;
  assert (4 <= 2 ^ 180)%Z as A by (apply Z.leb_le; vm_compute; reflexivity); unfold eps in *; set (q := (2 ^ 180)%Z) in *; clearbody q; apply IZR_le in A;
  rewrite !mult_IZR, !plus_IZR in C1; rewrite !mult_IZR, !minus_IZR in C2; set (Q := IZR q) in *; clearbody Q;
  set (D := IZR LN2_DENOMINATOR) in *; clearbody D; set (N := IZR LN2_NUMERATOR) in *; clearbody N; set (l := ln 2) in *; clearbody l.
  - apply Rmult_lt_compat_r with (r := (D - 1) * Q) in C2; [|nra]. replace (N * (Q - 1) / ((D - 1) * Q) * ((D - 1) * Q)) with (N * (Q - 1)) in C2 by (field; lra).
    apply Rmult_lt_reg_r with (l * Q); [nra|]. replace (N / l * (1 - / Q) * (l * Q)) with (N * (Q - 1)) by (field; lra). nra.
  - apply Rmult_lt_compat_r with (r := D * Q) in C1; [|nra]. replace (N * (Q + 1) / (D * Q) * (D * Q)) with (N * (Q + 1)) in C1 by (field; lra).
    apply Rmult_le_reg_r with (l * Q); [nra|]. replace (N / l * (1 + / Q) * (l * Q)) with (N * (Q + 1)) by (field; lra). nra.
Qed.
Lemma ln2_denominator_iff v : ln2_denominator v <-> v = LN2_DENOMINATOR.
Proof.
  split.
  - intros (num & b & q & Hn & R1 & R2 & G). apply ln2_numerator_iff in Hn. subst num. exact (is_ceiling_unique _ _ _ G (ln2_denominator_rounds _ _ R1 R2)).
  - intros ->. pose proof ln2_half as [H1 H2]. assert (0 < ln 2) as Hl by lra. destruct (rounds_exists _ Hl) as [b R1]. pose proof (rounds_pos _ _ Hl R1) as Pb.
    destruct (rounds_exists (IZR LN2_NUMERATOR / b)) as [q R2]; [apply Rdiv_lt_0_compat; [apply IZR_lt; reflexivity|exact Pb]|].
    exists LN2_NUMERATOR, b, q. split; [now apply ln2_numerator_iff|]. split; [exact R1|]. split; [exact R2|]. exact (ln2_denominator_rounds _ _ R1 R2).
Qed.
Lemma ln2_generated : (forall v, ln2_numerator v <-> v = LN2_NUMERATOR) /\ (forall v, ln2_denominator v <-> v = LN2_DENOMINATOR).
Proof. split; [exact ln2_numerator_iff|exact ln2_denominator_iff]. Qed.
