(* Integer facts about the formula model. *)
From Coq Require Import ZArith List String Lia Bool Btauto.
From Verif Require Import Res FormulaConsts FormulaModel.
Import ListNotations.
Local Open Scope Z_scope.

Lemma FIXED_1_pow : FIXED_1 = 2 ^ 127. Proof. reflexivity. Qed.
Lemma FIXED_1_pos : 0 < FIXED_1. Proof. reflexivity. Qed.
Lemma FIXED_2_eq : FIXED_2 = 2 * FIXED_1. Proof. reflexivity. Qed.
Lemma MAX_NUM_pow : MAX_NUM = 2 ^ 129. Proof. reflexivity. Qed.
Lemma OEM_eq : OPT_EXP_MAX_VAL = 16 * FIXED_1. Proof. reflexivity. Qed.
Lemma OLM_gt : FIXED_1 < OPT_LOG_MAX_VAL. Proof. reflexivity. Qed.

(* ---------- optimal_log ---------- *)

(* shape of the high steps: threshold = divisor >= FIXED_1, addend >= 0 *)
Definition log_hi_ok (l : list (Z * Z * Z)) : bool :=
  forallb (fun '(t, a, d) => (t =? d) && (FIXED_1 <=? d) && (0 <=? a)) l.
Lemma log_hi_ok_true : log_hi_ok optimal_log_hi = true. Proof. vm_compute. reflexivity. Qed.

Lemma log_hi_loop_ge l : log_hi_ok l = true -> forall x acc, FIXED_1 <= x ->
  FIXED_1 <= fst (optimal_log_hi_loop l x acc) /\ acc <= snd (optimal_log_hi_loop l x acc).
Proof.
  induction l as [|[[t a] d] l IH]; cbn [log_hi_ok forallb optimal_log_hi_loop]; intros H x acc Hx.
  - simpl. lia.
  - rewrite !andb_true_iff in H. destruct H as [[[H1 H2] H3] H4].
    apply Z.eqb_eq in H1. apply Z.leb_le in H2, H3. subst t.
    pose proof FIXED_1_pos.
    destruct (Z.leb_spec d x) as [Hd|Hd].
    + specialize (IH H4 (x * FIXED_1 / d) (acc + a)).
      destruct IH as [I1 I2]; [|split; [exact I1|lia]].
      apply Z.div_le_lower_bound; nia.
    + apply IH; assumption.
Qed.

(* an upper bound of x after the high steps, computed from an upper bound before *)
Fixpoint log_hi_ub (l : list (Z * Z * Z)) (ub : Z) : Z :=
  match l with
  | [] => ub
  | (t, a, d) :: l' => log_hi_ub l' (Z.max t (ub * FIXED_1 / d))
  end.

Lemma log_hi_loop_ub l : log_hi_ok l = true -> forall x acc ub, x <= ub ->
  fst (optimal_log_hi_loop l x acc) <= log_hi_ub l ub.
Proof.
  induction l as [|[[t a] d] l IH]; cbn [log_hi_ok forallb optimal_log_hi_loop log_hi_ub]; intros H x acc ub Hx.
  - exact Hx.
  - rewrite !andb_true_iff in H. destruct H as [[[H1 H2] H3] H4].
    apply Z.leb_le in H2. pose proof FIXED_1_pos.
    destruct (Z.leb_spec t x) as [Hd|Hd]; apply IH; try assumption.
    + apply Z.max_le_iff. right. apply Z.div_le_mono; nia.
    + lia.
Qed.

Definition log_lo_ok (l : list (Z * Z)) (ymax : Z) : bool :=
  forallb (fun '(n, d) => (ymax <=? n) && (0 <? d)) l.

Lemma log_lo_loop_ge l ymax : log_lo_ok l ymax = true -> forall y w z acc,
  0 <= y <= ymax -> 0 <= w -> 0 <= z -> acc <= optimal_log_lo_loop l y w z acc.
Proof.
  induction l as [|[n d] l IH]; cbn [log_lo_ok forallb optimal_log_lo_loop]; intros H y w z acc Hy Hw Hz.
  - lia.
  - rewrite !andb_true_iff in H. destruct H as [[H1 H2] H3].
    apply Z.leb_le in H1. apply Z.ltb_lt in H2.
    assert (0 <= z * (n - y) / d) by (apply Z.div_pos; nia).
    etransitivity; [|apply IH; try assumption]; [lia|].
    apply Z.div_pos; [nia|reflexivity].
Qed.

(* the residual after the high steps is at most FIXED_1 / 255 *)
Lemma log_residual x acc : FIXED_1 <= x < OPT_LOG_MAX_VAL ->
  0 <= fst (optimal_log_hi_loop optimal_log_hi x acc) - FIXED_1 <= FIXED_1 / 255.
Proof.
  intros [H1 H2].
  destruct (log_hi_loop_ge _ log_hi_ok_true x acc H1) as [I1 _].
  assert (x <= OPT_LOG_MAX_VAL - 1) as H3 by lia.
  pose proof (log_hi_loop_ub _ log_hi_ok_true x acc _ H3) as I2.
  split; [lia|].
  assert (log_hi_ub optimal_log_hi (OPT_LOG_MAX_VAL - 1) <= FIXED_1 / 255 + FIXED_1) as I3.
  { apply Z.leb_le. vm_compute. reflexivity. }
  lia.
Qed.

Lemma optimal_log_nonneg x : FIXED_1 <= x < OPT_LOG_MAX_VAL -> 0 <= optimal_log x.
Proof.
  intros H. unfold optimal_log.
  pose proof (log_residual x 0 H) as R.
  destruct (log_hi_loop_ge _ log_hi_ok_true x 0 (proj1 H)) as [_ G].
  destruct (optimal_log_hi_loop optimal_log_hi x 0) as [x' acc]. cbn [fst snd] in *.
  assert (log_lo_ok optimal_log_lo (FIXED_1 / 255) = true) as L by (vm_compute; reflexivity).
  pose proof FIXED_1_pos.
  etransitivity; [exact G|].
  apply (log_lo_loop_ge _ _ L); try lia.
  apply Z.div_pos; nia.
Qed.

(* ---------- optimal_exp ---------- *)
Lemma exp_lo_loop_ge l : forallb (fun c => 0 <=? c) l = true -> forall y z acc,
  0 <= y -> 0 <= z -> acc <= optimal_exp_lo_loop l y z acc.
Proof.
  induction l as [|c l IH]; cbn [forallb optimal_exp_lo_loop]; intros H y z acc Hy Hz; [lia|].
  apply andb_true_iff in H. destruct H as [H1 H2]. apply Z.leb_le in H1.
  assert (0 <= z * y / FIXED_1) by (apply Z.div_pos; [nia|reflexivity]).
  cbn zeta. etransitivity; [|apply IH; assumption]. nia.
Qed.

Lemma exp_hi_loop_ge l : forallb (fun '(m, n, d) => (0 <? d) && (d <=? n)) l = true -> forall x acc,
  0 <= acc -> acc <= optimal_exp_hi_loop l x acc.
Proof.
  induction l as [|[[m n] d] l IH]; cbn [forallb optimal_exp_hi_loop]; intros H x acc Ha; [lia|].
  apply andb_true_iff in H. destruct H as [H1 H2].
  apply andb_true_iff in H1. destruct H1 as [H0 H1].
  apply Z.ltb_lt in H0. apply Z.leb_le in H1.
  destruct (negb _); [|apply IH; assumption].
  assert (acc <= acc * n / d) by (apply Z.div_le_lower_bound; nia).
  etransitivity; [|apply IH; try assumption]; lia.
Qed.

Lemma optimal_exp_ge x : FIXED_1 <= optimal_exp x.
Proof.
  unfold optimal_exp. cbv zeta.
  assert (0 <= x mod optimal_exp_mod) as Hy by (apply Z.mod_pos_bound; reflexivity).
  assert (0 <= optimal_exp_lo_loop optimal_exp_coefs (x mod optimal_exp_mod) (x mod optimal_exp_mod) 0 / optimal_exp_divisor) as H.
  { apply Z.div_pos; [|reflexivity]. apply exp_lo_loop_ge; try assumption. vm_compute. reflexivity. }
  pose proof FIXED_1_pos.
  etransitivity; [|apply exp_hi_loop_ge]; [lia|vm_compute; reflexivity|lia].
Qed.

(* ---------- general_exp ---------- *)
Lemma gexp_loop_ge l : forallb (fun c => 0 <=? c) l = true -> forall x p xi acc,
  0 <= x -> 0 <= p -> 0 <= xi -> acc <= general_exp_loop l x p xi acc.
Proof.
  induction l as [|c l IH]; cbn [forallb general_exp_loop]; intros H x p xi acc Hx Hp Hxi; [lia|].
  apply andb_true_iff in H. destruct H as [H1 H2]. apply Z.leb_le in H1.
  assert (0 <= Z.shiftr (xi * x) p) by (apply Z.shiftr_nonneg; nia).
  cbn zeta. etransitivity; [|apply IH; assumption]. nia.
Qed.

Lemma general_exp_ge x p : 0 <= x -> 0 <= p -> 2 ^ p <= general_exp x p.
Proof.
  intros Hx Hp. unfold general_exp.
  rewrite Z.shiftl_mul_pow2 by assumption. change ONE with 1.
  assert (0 <= general_exp_loop general_exp_coefs x p x 0 / general_exp_divisor).
  { apply Z.div_pos; [|reflexivity]. apply gexp_loop_ge; try assumption. vm_compute. reflexivity. }
  lia.
Qed.

(* ---------- floor_log2 ---------- *)
Lemma floor_log2_loop1_ok f : forall n acc, 1 <= n < 2 ^ (Z.of_nat f + 1) ->
  floor_log2_loop1 f n acc = Ok (acc + Z.log2 n).
Proof.
  induction f as [|f IH]; cbn [floor_log2_loop1]; intros n acc H.
  - change (2 ^ (Z.of_nat 0 + 1)) with 2 in H. assert (n = 1) by lia. subst n. simpl.
    f_equal. lia.
  - destruct (Z.ltb_spec 1 n) as [L|L].
    + rewrite Nat2Z.inj_succ in H. unfold Z.succ in H.
      rewrite Z.shiftr_div_pow2 by lia. change (2 ^ 1) with 2.
      replace (Z.of_nat f + 1 + 1) with (Z.succ (Z.of_nat f + 1)) in H by lia.
      rewrite Z.pow_succ_r in H by lia.
      rewrite IH.
      * f_equal.
        change 2 with (2 ^ 1). rewrite <- Z.shiftr_div_pow2 by lia.
        rewrite Z.log2_shiftr by lia.
        assert (1 <= Z.log2 n) by (apply Z.log2_le_pow2; lia). lia.
      * split; [apply Z.div_le_lower_bound; lia|apply Z.div_lt_upper_bound; lia].
    + assert (n = 1) by lia. subst n. f_equal. simpl. lia.
Qed.


Lemma floor_log2_loop2_ok n : 1 <= n < 2 ^ 256 -> floor_log2_loop2 8 128 n 0 = Ok (Z.log2 n).
Proof.
  intros H.
  (* generic step: n < 2^(2s) *)
  assert (forall s, 0 < s -> forall m, 1 <= m < 2 ^ (2 * s) ->
          (if Z.shiftl ONE s <=? m then 1 <= Z.shiftr m s < 2 ^ s /\ Z.log2 m = s + Z.log2 (Z.shiftr m s)
           else 1 <= m < 2 ^ s)) as Step.
  { intros s Hs m Hm. rewrite Z.shiftl_mul_pow2 by lia. change ONE with 1. rewrite Z.mul_1_l.
    destruct (Z.leb_spec (2 ^ s) m) as [L|L]; [|lia].
    assert (s <= Z.log2 m) by (apply Z.log2_le_pow2; lia).
    split.
    - rewrite Z.shiftr_div_pow2 by lia.
      assert (0 < 2 ^ s) by (apply Z.pow_pos_nonneg; lia).
      split; [apply Z.div_le_lower_bound; lia|apply Z.div_lt_upper_bound; try lia].
      rewrite <- Z.pow_add_r by lia. replace (s + s) with (2 * s) by lia. lia.
    - rewrite Z.log2_shiftr by lia. lia. }
  assert (forall f s acc m, f <> O -> s = 2 ^ (Z.of_nat f - 1) -> 0 <= acc -> acc mod (2 * s) = 0 ->
          1 <= m < 2 ^ (2 * s) -> floor_log2_loop2 f s m acc = Ok (acc + Z.log2 m)) as Main.
  { induction f as [|f IH]; intros s acc m Hf Hs Ha Hmod Hm; [congruence|].
    clear Hf. rewrite Nat2Z.inj_succ in Hs. unfold Z.succ in Hs.
    replace (Z.of_nat f + 1 - 1) with (Z.of_nat f) in Hs by lia.
    assert (0 < s) by (subst s; apply Z.pow_pos_nonneg; lia).
    cbn [floor_log2_loop2]. destruct (Z.ltb_spec 0 s); [|lia].
    specialize (Step s ltac:(lia) m Hm).
    assert (Z.lor acc s = acc + s) as Hlor.
    { symmetry. rewrite Z.add_nocarry_lxor.
      - apply Z.bits_inj'. intros i Hi. rewrite Z.lxor_spec, Z.lor_spec. subst s.
        rewrite Z.pow2_bits_eqb by lia.
        destruct (Z.eqb_spec (Z.of_nat f) i); [|btauto].
        subst i.
        assert (Z.testbit acc (Z.of_nat f) = false) as ->; [|reflexivity].
        rewrite <- (Z.mod_pow2_bits_low acc (Z.of_nat f + 1)) by lia.
        replace (2 ^ (Z.of_nat f + 1)) with (2 * 2 ^ Z.of_nat f) by (rewrite Z.pow_add_r by lia; change (2^1) with 2; lia).
        rewrite Hmod. apply Z.bits_0.
      - apply Z.bits_inj'. intros i Hi. rewrite Z.land_spec, Z.bits_0. subst s.
        rewrite Z.pow2_bits_eqb by lia.
        destruct (Z.eqb_spec (Z.of_nat f) i); [|btauto].
        subst i.
        assert (Z.testbit acc (Z.of_nat f) = false) as ->; [|reflexivity].
        rewrite <- (Z.mod_pow2_bits_low acc (Z.of_nat f + 1)) by lia.
        replace (2 ^ (Z.of_nat f + 1)) with (2 * 2 ^ Z.of_nat f) by (rewrite Z.pow_add_r by lia; change (2^1) with 2; lia).
        rewrite Hmod. apply Z.bits_0. }
    assert ((acc + s) mod s = 0 /\ acc mod s = 0) as [Hm1 Hm2].
    { apply Z.mod_divide in Hmod; [|lia]. destruct Hmod as [k Hk]. split.
      - replace (acc + s) with ((2 * k + 1) * s) by lia. apply Z.mod_mul. lia.
      - replace acc with ((2 * k) * s) by lia. apply Z.mod_mul. lia. }
    destruct f as [|f].
    - (* s = 1 *) change (2 ^ Z.of_nat 0) with 1 in Hs. subst s. change (Z.shiftr 1 1) with 0.
      destruct (Z.leb_spec (Z.shiftl ONE 1) m); cbn [floor_log2_loop2]; change (0 <? 0) with false; cbv iota.
      + f_equal. rewrite Hlor. destruct Step as [S1 S2]. rewrite S2.
        assert (Z.shiftr m 1 = 1) as -> by (change (2^1) with 2 in S1; lia). change (Z.log2 1) with 0. lia.
      + f_equal. change (2^1) with 2 in Step. assert (m = 1) by lia. subst m. change (Z.log2 1) with 0. lia.
    - assert (Z.shiftr s 1 = 2 ^ (Z.of_nat (S f) - 1) /\ 2 * Z.shiftr s 1 = s) as [Hs1 Hs2].
      { rewrite Z.shiftr_div_pow2 by lia. rewrite Hs. change (2 ^ 1) with 2.
        replace (Z.of_nat (S f)) with (Z.succ (Z.of_nat f)) by lia.
        rewrite Z.pow_succ_r by lia. rewrite Z.mul_comm, Z.div_mul by lia.
        replace (Z.succ (Z.of_nat f) - 1) with (Z.of_nat f) by lia. split; [reflexivity|lia]. }
      destruct (Z.leb_spec (Z.shiftl ONE s) m).
      + rewrite Hlor. destruct Step as [S1 S2].
        rewrite IH; try (rewrite ?Hs2; assumption || congruence || lia).
        f_equal. lia.
      + rewrite IH; try (rewrite ?Hs2; assumption || congruence || lia). }
  rewrite (Main 8%nat 128 0 n); try reflexivity; try lia; congruence.
Qed.

Lemma floor_log2_ok n : 1 <= n < 2 ^ 256 -> floor_log2 n = Ok (Z.log2 n).
Proof.
  intros H. unfold floor_log2. destruct (Z.ltb_spec n 256).
  - rewrite floor_log2_loop1_ok; [reflexivity|]. split; [lia|].
    change (2 ^ (Z.of_nat 8 + 1)) with 512. lia.
  - apply floor_log2_loop2_ok. exact H.
Qed.

(* ---------- general_log ---------- *)
Lemma general_log_loop_ge i : forall x acc, acc <= general_log_loop i x acc.
Proof.
  induction i as [|i IH]; cbn [general_log_loop]; intros x acc; [lia|]. cbv zeta.
  destruct (Z.leb_spec FIXED_2 (x * x / FIXED_1)) as [L|L]; [|apply IH].
  etransitivity; [|apply IH].
  rewrite Z.shiftl_mul_pow2 by lia. change ONE with 1.
  assert (0 <= 2 ^ (Z.of_nat (S i) - 1)) by (apply Z.pow_nonneg; lia). lia.
Qed.

Lemma general_log_ok x : FIXED_1 <= x < 2 ^ 256 -> exists v, general_log x = Ok v /\ 0 <= v.
Proof.
  intros H. unfold general_log. pose proof FIXED_1_pos.
  assert (forall y acc, 0 <= acc -> 0 <= (if FIXED_1 <? y then general_log_loop (Z.to_nat MAX_PRECISION) y acc else acc)) as G.
  { intros y acc Ha. destruct (Z.ltb_spec FIXED_1 y); [|exact Ha].
    pose proof (general_log_loop_ge (Z.to_nat MAX_PRECISION) y acc). lia. }
  destruct (Z.leb_spec FIXED_2 x) as [L|L]; cbn [rbind].
  - rewrite floor_log2_ok.
    + cbn [rbind]. eexists; split; [reflexivity|].
      apply Z.div_pos; [|reflexivity]. apply Z.mul_nonneg_nonneg; [|discriminate].
      apply G. pose proof (Z.log2_nonneg (x / FIXED_1)). nia.
    + split; [apply Z.div_le_lower_bound; lia|]. apply Z.div_lt_upper_bound; lia.
  - eexists; split; [reflexivity|].
    apply Z.div_pos; [|reflexivity]. apply Z.mul_nonneg_nonneg; [|discriminate]. apply G. lia.
Qed.

(* ---------- find_position ---------- *)
(* the table as a total function, meaningful on 32..127 *)
Definition table (i : Z) : Z :=
  match nth_error max_exp_array (Z.to_nat i) with Some (Some v) => v | _ => 0 end.

Lemma table_ge i x : 32 <= i <= 127 -> max_exp_ge i x = Ok (x <=? table i).
Proof.
  intros H. unfold max_exp_ge, table.
  assert (forallb (fun n => match nth_error max_exp_array n with Some (Some _) => true | _ => false end)
                  (seq 32 96) = true) as A by (vm_compute; reflexivity).
  rewrite forallb_forall in A.
  specialize (A (Z.to_nat i)). rewrite in_seq in A. specialize (A ltac:(lia)).
  destruct (nth_error max_exp_array (Z.to_nat i)) as [[v|]|]; try discriminate. reflexivity.
Qed.

Lemma table_step i : 32 <= i < 127 -> table (i + 1) < table i.
Proof.
  intros H.
  assert (forallb (fun n => table (Z.of_nat n + 1) <? table (Z.of_nat n)) (seq 32 95) = true) as A
    by (vm_compute; reflexivity).
  rewrite forallb_forall in A.
  specialize (A (Z.to_nat i)). rewrite in_seq in A. specialize (A ltac:(lia)).
  rewrite Z2Nat.id in A by lia. apply Z.ltb_lt in A. exact A.
Qed.

Lemma table_decreasing i j : 32 <= i -> i < j -> j <= 127 -> table j < table i.
Proof.
  intros H1 H2 H3.
  replace j with (i + 1 + Z.of_nat (Z.to_nat (j - i - 1))) in * by lia.
  generalize dependent (Z.to_nat (j - i - 1)). intros n. induction n as [|n IH]; intros H2 H3.
  - rewrite Z.add_0_r. apply table_step. lia.
  - etransitivity; [|apply IH; lia].
    replace (i + 1 + Z.of_nat (S n)) with (i + 1 + Z.of_nat n + 1) by lia. apply table_step. lia.
Qed.

Lemma find_loop_ok f : forall lo hi x, 32 <= lo -> lo < hi -> hi <= 127 -> hi - lo <= 2 ^ (Z.of_nat f) ->
  (lo = 32 \/ x <= table lo) -> (hi = 127 \/ table hi < x) ->
  exists lo', find_position_loop f lo hi x = Ok (lo', lo' + 1) /\ 32 <= lo' < 127 /\
     (lo' = 32 \/ x <= table lo') /\ (lo' + 1 = 127 \/ table (lo' + 1) < x).
Proof.
  induction f as [|f IH]; intros lo hi x H1 H2 H3 H4 H5 H6; cbn [find_position_loop].
  - change (2 ^ Z.of_nat 0) with 1 in H4. assert (hi = lo + 1) by lia. subst hi.
    rewrite Z.ltb_irrefl. exists lo. repeat split; try lia; assumption.
  - destruct (Z.ltb_spec (lo + 1) hi) as [L|L].
    + rewrite Nat2Z.inj_succ, Z.pow_succ_r in H4 by lia. cbv zeta.
      pose proof (Z.div_mod (lo + hi) 2 ltac:(lia)). pose proof (Z.mod_pos_bound (lo + hi) 2 ltac:(lia)).
      rewrite table_ge by lia. cbn [rbind].
      destruct (Z.leb_spec x (table ((lo + hi) / 2))); apply IH; try lia; try assumption.
    + assert (hi = lo + 1) by lia. subst hi. exists lo. repeat split; try lia; assumption.
Qed.

Lemma find_position_spec x :
  exists p, find_position_in_max_exp_array x = Ok p /\
    ((p = 0 /\ forall i, 32 <= i <= 127 -> table i < x) \/
     (32 <= p <= 127 /\ x <= table p /\ forall i, p < i <= 127 -> table i < x)).
Proof.
  unfold find_position_in_max_exp_array.
  destruct (find_loop_ok 7 32 127 x) as (lo & E & Hlo & Hl & Hh);
    [lia|lia|lia|change (2 ^ Z.of_nat 7) with 128; lia|left; reflexivity|left; reflexivity|].
  change MIN_PRECISION with 32. change MAX_PRECISION with 127. rewrite E. cbn [rbind].
  rewrite !table_ge by lia. cbn [rbind].
  destruct (Z.leb_spec x (table (lo + 1))) as [L|L].
  - exists (lo + 1). split; [reflexivity|]. right. split; [lia|]. split; [exact L|].
    intros i Hi. pose proof (table_decreasing (lo + 1) i ltac:(lia) ltac:(lia) ltac:(lia)). lia.
  - assert (forall i, lo + 1 < i <= 127 -> table i < x) as A.
    { intros i Hi. pose proof (table_decreasing (lo + 1) i ltac:(lia) ltac:(lia) ltac:(lia)). lia. }
    destruct (Z.leb_spec x (table lo)) as [L2|L2]; cbn [rbind].
    + exists lo. split; [reflexivity|]. right. split; [lia|]. split; [exact L2|].
      intros i Hi. destruct (Z.eq_dec i (lo + 1)); [subst; lia|apply A; lia].
    + exists 0. split; [reflexivity|]. left. split; [reflexivity|].
      intros i Hi. destruct Hl as [->|Hl]; [|lia].
      destruct (Z.eq_dec i 32); [subst; lia|]. destruct (Z.eq_dec i 33); [subst i; exact L|].
      apply A. lia.
Qed.

(* ---------- power ---------- *)
Lemma power_ok bn bd en ed : 0 < bd <= bn -> bn < MAX_NUM -> 0 <= en -> 0 < ed ->
  exists r p, power bn bd en ed = Ok (r, p) /\ 0 <= p <= 127 /\ 2 ^ p <= r.
Proof.
  intros Hb Hn He Hd. unfold power, rrequire, py_div.
  rewrite (proj2 (Z.ltb_lt _ _) Hn). cbn [rbind].
  destruct (Z.eqb_spec bd 0); [lia|]. cbn [rbind].
  pose proof FIXED_1_pos. rewrite MAX_NUM_pow in Hn.
  assert (FIXED_1 <= bn * FIXED_1 / bd) as B1 by (apply Z.div_le_lower_bound; nia).
  assert (bn * FIXED_1 / bd < 2 ^ 256) as B2.
  { apply Z.div_lt_upper_bound; [lia|]. rewrite FIXED_1_pow.
    change (2 ^ 256) with (2 ^ 129 * 2 ^ 127). nia. }
  set (base := bn * FIXED_1 / bd) in *.
  assert (exists bl, (if base <? OPT_LOG_MAX_VAL then Ok (optimal_log base) else general_log base) = Ok bl /\ 0 <= bl)
    as (bl & E & Hbl).
  { destruct (Z.ltb_spec base OPT_LOG_MAX_VAL).
    - exists (optimal_log base). split; [reflexivity|]. apply optimal_log_nonneg. lia.
    - apply general_log_ok. lia. }
  rewrite E. cbn [rbind]. destruct (Z.eqb_spec ed 0); [lia|]. cbn [rbind].
  assert (0 <= bl * en / ed) by (apply Z.div_pos; nia).
  destruct (Z.ltb_spec (bl * en / ed) OPT_EXP_MAX_VAL).
  - do 2 eexists. split; [reflexivity|]. change MAX_PRECISION with 127. split; [lia|].
    rewrite <- FIXED_1_pow. apply optimal_exp_ge.
  - destruct (find_position_spec (bl * en / ed)) as (p & Ep & Hp). rewrite Ep. cbn [rbind].
    assert (0 <= p <= 127) by lia.
    do 2 eexists. split; [reflexivity|]. split; [lia|].
    apply general_exp_ge; [|lia]. apply Z.shiftr_nonneg. lia.
Qed.
